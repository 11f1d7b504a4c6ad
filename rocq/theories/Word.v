(* Machine words as N below 2^w, with every wrap-around written out.
   These are the C unsigned operations on uint32_t (w=32), uint64_t (w=64),
   __uint128_t (w=128) used throughout /repo/randomgen/src. *)
From Coq Require Export NArith ZArith Lia List Bool.
From Coq Require Import ZifyBool ZifyNat ZifyN.
Export ListNotations.
Ltac Zify.zify_post_hook ::= Z.div_mod_to_equations.
Open Scope N_scope.

Arguments N.add : simpl never.
Arguments N.mul : simpl never.
Arguments N.sub : simpl never.
Arguments N.modulo : simpl never.
Arguments N.div : simpl never.
Arguments N.pow : simpl never.
Arguments N.lxor : simpl never.
Arguments N.land : simpl never.
Arguments N.lor : simpl never.
Arguments N.shiftl : simpl never.
Arguments N.shiftr : simpl never.
Arguments N.testbit : simpl never.

(* x fits in a w-bit unsigned variable *)
Definition wf (w x : N) : Prop := x < 2 ^ w.

(* conversion to a w-bit unsigned type, C11 6.3.1.3p2 *)
Definition trunc (w x : N) : N := x mod 2 ^ w.
(* unsigned +, -, *, wrapping modulo 2^w, C11 6.2.5p9 *)
Definition wadd (w a b : N) : N := (a + b) mod 2 ^ w.
Definition wmul (w a b : N) : N := (a * b) mod 2 ^ w.
Definition wsub (w a b : N) : N := (a + (2 ^ w - b mod 2 ^ w)) mod 2 ^ w.
Definition wneg (w a : N) : N := wsub w 0 a.
(* bitwise complement of a w-bit word *)
Definition wnot (w a : N) : N := N.lxor a (N.ones w).
(* << on a w-bit word; the shift count is below w at every use, a count of w
   or more is undefined behaviour in C and modelled where it can occur *)
Definition wshl (w a k : N) : N := (N.shiftl a k) mod 2 ^ w.
Definition wshr (a k : N) : N := N.shiftr a k.
(* rotations written (x << k) | (x >> (w - k)), for 0 < k < w *)
Definition rotl (w a k : N) : N := N.lor (wshl w a k) (N.shiftr a (w - k)).
Definition rotr (w a k : N) : N := N.lor (N.shiftr a k) (wshl w a (w - k)).

Lemma pow2_pos w : 0 < 2 ^ w.
Proof. apply N.neq_0_lt_0, N.pow_nonzero; discriminate. Qed.
Lemma pow2_nz w : 2 ^ w <> 0.
Proof. apply N.pow_nonzero; discriminate. Qed.
#[global] Hint Resolve pow2_pos pow2_nz : word.

Lemma wf_trunc w x : wf w (trunc w x).
Proof. unfold wf, trunc. apply N.mod_lt, pow2_nz. Qed.
Lemma wf_wadd w a b : wf w (wadd w a b).
Proof. apply N.mod_lt, pow2_nz. Qed.
Lemma wf_wmul w a b : wf w (wmul w a b).
Proof. apply N.mod_lt, pow2_nz. Qed.
Lemma wf_wsub w a b : wf w (wsub w a b).
Proof. apply N.mod_lt, pow2_nz. Qed.
Lemma wf_wshl w a k : wf w (wshl w a k).
Proof. apply N.mod_lt, pow2_nz. Qed.
Lemma wf_0 w : wf w 0.
Proof. apply pow2_pos. Qed.

Lemma trunc_small w x : wf w x -> trunc w x = x.
Proof. apply N.mod_small. Qed.

Lemma wf_testbit w x : wf w x <-> forall i, w <= i -> N.testbit x i = false.
Proof.
  unfold wf. split.
  - intros H i Hi. destruct (N.eq_dec x 0) as [->|Hx].
    + apply N.bits_0.
    + apply N.bits_above_log2. apply N.log2_lt_pow2 in H; lia.
  - intros H. destruct (N.eq_dec x 0) as [->|Hx]; [apply pow2_pos|].
    apply N.log2_lt_pow2; [lia|].
    destruct (N.lt_ge_cases (N.log2 x) w) as [Hl|Hg]; [exact Hl|].
    specialize (H _ Hg). rewrite N.bit_log2 in H by exact Hx. discriminate.
Qed.

Lemma wf_lxor w a b : wf w a -> wf w b -> wf w (N.lxor a b).
Proof.
  rewrite !wf_testbit. intros Ha Hb i Hi.
  now rewrite N.lxor_spec, Ha, Hb.
Qed.
Lemma wf_lor w a b : wf w a -> wf w b -> wf w (N.lor a b).
Proof.
  rewrite !wf_testbit. intros Ha Hb i Hi.
  now rewrite N.lor_spec, Ha, Hb.
Qed.
Lemma wf_land_l w a b : wf w a -> wf w (N.land a b).
Proof.
  rewrite !wf_testbit. intros Ha i Hi. now rewrite N.land_spec, Ha.
Qed.
Lemma wf_land_r w a b : wf w b -> wf w (N.land a b).
Proof.
  rewrite !wf_testbit. intros Ha i Hi. rewrite N.land_spec, Ha; [apply andb_false_r|exact Hi].
Qed.
Lemma wf_shr w a k : wf w a -> wf w (N.shiftr a k).
Proof.
  unfold wf. rewrite N.shiftr_div_pow2. intros H.
  eapply N.le_lt_trans; [|exact H].
  apply N.div_le_upper_bound; [apply pow2_nz|].
  pose proof (pow2_pos k). nia.
Qed.
Lemma wf_rotl w a k : wf w a -> wf w (rotl w a k).
Proof. intros H. apply wf_lor; [apply wf_wshl|now apply wf_shr]. Qed.
Lemma wf_rotr w a k : wf w a -> wf w (rotr w a k).
Proof. intros H. apply wf_lor; [now apply wf_shr|apply wf_wshl]. Qed.
Lemma wf_mono w w' a : w <= w' -> wf w a -> wf w' a.
Proof.
  unfold wf. intros Hw H. eapply N.lt_le_trans; [exact H|].
  apply N.pow_le_mono_r; [discriminate|exact Hw].
Qed.
#[global] Hint Resolve wf_trunc wf_wadd wf_wmul wf_wsub wf_wshl wf_0 wf_lxor wf_lor
  wf_shr wf_rotl wf_rotr wf_land_l : word.

(* ---- modular ring facts, by transport to Z ---- *)
Lemma mod_add_l a b m : m <> 0 -> (a mod m + b) mod m = (a + b) mod m.
Proof. intros. now rewrite N.add_mod_idemp_l. Qed.

Lemma Ztrunc w x : Z.of_N (x mod 2 ^ w) = (Z.of_N x mod 2 ^ Z.of_N w)%Z.
Proof. rewrite N2Z.inj_mod, N2Z.inj_pow. reflexivity. Qed.

Lemma Zpow2_pos w : (0 < 2 ^ Z.of_N w)%Z.
Proof. apply Z.pow_pos_nonneg; lia. Qed.

Lemma Zwadd w a b :
  Z.of_N (wadd w a b) = ((Z.of_N a + Z.of_N b) mod 2 ^ Z.of_N w)%Z.
Proof. unfold wadd. rewrite Ztrunc. f_equal. lia. Qed.
Lemma Zwmul w a b :
  Z.of_N (wmul w a b) = ((Z.of_N a * Z.of_N b) mod 2 ^ Z.of_N w)%Z.
Proof. unfold wmul. rewrite Ztrunc. f_equal. lia. Qed.
Lemma Zwsub w a b :
  Z.of_N (wsub w a b) = ((Z.of_N a - Z.of_N b) mod 2 ^ Z.of_N w)%Z.
Proof.
  unfold wsub. rewrite Ztrunc.
  assert (H : b mod 2 ^ w < 2 ^ w) by (apply N.mod_lt, pow2_nz).
  rewrite N2Z.inj_add, N2Z.inj_sub by lia.
  rewrite Ztrunc, N2Z.inj_pow. change (Z.of_N 2) with 2%Z.
  set (m := (2 ^ Z.of_N w)%Z).
  assert (Hm : (m <> 0)%Z) by (pose proof (Zpow2_pos w); lia).
  replace (Z.of_N a + (m - Z.of_N b mod m))%Z
    with ((Z.of_N a - Z.of_N b mod m) + 1 * m)%Z by ring.
  rewrite Z.mod_add by exact Hm.
  rewrite Zminus_mod_idemp_r. reflexivity.
Qed.
Lemma Zwf w a : wf w a -> (0 <= Z.of_N a < 2 ^ Z.of_N w)%Z.
Proof.
  unfold wf. intros H. split; [lia|]. apply N2Z.inj_lt in H.
  rewrite N2Z.inj_pow in H. exact H.
Qed.

(* Prove an equation between w-bit words by ring reasoning modulo 2^w. *)
Ltac Zpush w :=
  repeat (rewrite Zwadd || rewrite Zwmul || rewrite Zwsub || rewrite Ztrunc);
  rewrite ?Zplus_mod_idemp_l, ?Zplus_mod_idemp_r, ?Zminus_mod_idemp_l,
    ?Zminus_mod_idemp_r, ?Zmult_mod_idemp_l, ?Zmult_mod_idemp_r.

Lemma wsub_wadd w a b : wf w a -> wsub w (wadd w a b) b = a.
Proof.
  intros Ha. apply N2Z.inj. Zpush w.
  replace (Z.of_N a + Z.of_N b - Z.of_N b)%Z with (Z.of_N a) by ring.
  apply Z.mod_small, Zwf, Ha.
Qed.
Lemma wsub_wadd_l w a b : wf w b -> wsub w (wadd w a b) a = b.
Proof. intros Hb. unfold wadd. rewrite (N.add_comm a b). now apply wsub_wadd. Qed.
Lemma wadd_wsub w a b : wf w a -> wadd w (wsub w a b) b = a.
Proof.
  intros Ha. apply N2Z.inj. Zpush w.
  replace (Z.of_N a - Z.of_N b + Z.of_N b)%Z with (Z.of_N a) by ring.
  apply Z.mod_small, Zwf, Ha.
Qed.
Lemma wsub_wsub w a b : wf w b -> wsub w a (wsub w a b) = b.
Proof.
  intros Hb. apply N2Z.inj. Zpush w.
  replace (Z.of_N a - (Z.of_N a - Z.of_N b))%Z with (Z.of_N b) by ring.
  apply Z.mod_small, Zwf, Hb.
Qed.
Lemma wadd_comm w a b : wadd w a b = wadd w b a.
Proof. unfold wadd. now rewrite N.add_comm. Qed.
Lemma wmul_comm w a b : wmul w a b = wmul w b a.
Proof. unfold wmul. now rewrite N.mul_comm. Qed.
Lemma wadd_assoc w a b c : wadd w a (wadd w b c) = wadd w (wadd w a b) c.
Proof.
  unfold wadd. rewrite N.add_mod_idemp_r, N.add_mod_idemp_l by apply pow2_nz.
  now rewrite N.add_assoc.
Qed.
Lemma wmul_assoc w a b c : wmul w a (wmul w b c) = wmul w (wmul w a b) c.
Proof.
  unfold wmul. rewrite N.mul_mod_idemp_r, N.mul_mod_idemp_l by apply pow2_nz.
  now rewrite N.mul_assoc.
Qed.
Lemma wadd_0_r w a : wf w a -> wadd w a 0 = a.
Proof. intros H. unfold wadd. rewrite N.add_0_r. now apply N.mod_small. Qed.
Lemma wmul_1_r w a : wf w a -> wmul w a 1 = a.
Proof. intros H. unfold wmul. rewrite N.mul_1_r. now apply N.mod_small. Qed.

Lemma wadd_inj_l w a b c : wf w b -> wf w c -> wadd w a b = wadd w a c -> b = c.
Proof.
  intros Hb Hc H. rewrite <- (wsub_wadd_l w a b Hb), H. now apply wsub_wadd_l.
Qed.
Lemma wadd_inj_r w a b c : wf w b -> wf w c -> wadd w b a = wadd w c a -> b = c.
Proof. rewrite !(wadd_comm w _ a). apply wadd_inj_l. Qed.
Lemma wsub_inj_r w a b c : wf w b -> wf w c -> wsub w a b = wsub w a c -> b = c.
Proof.
  intros Hb Hc H. rewrite <- (wsub_wsub w a b Hb), H. now apply wsub_wsub.
Qed.
Lemma wsub_inj_l w a b c : wf w b -> wf w c -> wsub w b a = wsub w c a -> b = c.
Proof.
  intros Hb Hc H. rewrite <- (wadd_wsub w b a Hb), H. now apply wadd_wsub.
Qed.

(* multiplication by an odd constant is injective modulo 2^w *)
Lemma gcd_odd_pow2 c w : N.odd c = true -> N.gcd (2 ^ w) c = 1.
Proof.
  intros Hc. induction w as [|w IH] using N.peano_ind.
  - change (2 ^ 0) with 1. apply N.gcd_1_l.
  - rewrite N.pow_succ_r'. 
    assert (H2 : N.gcd 2 c = 1).
    { apply N.odd_spec in Hc. destruct Hc as [k ->].
      replace (2 * k + 1) with (1 + k * 2) by lia.
      rewrite N.gcd_add_mult_diag_r. reflexivity. }
    rewrite N.gcd_comm.
    assert (Hg : N.gcd c (2 * 2 ^ w) = 1).
    { set (g := N.gcd c (2 * 2 ^ w)).
      assert (Hg1 : (g | c)) by apply N.gcd_divide_l.
      assert (Hg2 : (g | 2 * 2 ^ w)) by apply N.gcd_divide_r.
      assert (Hg3 : N.gcd g 2 = 1).
      { apply N.divide_1_r. rewrite <- H2. apply N.gcd_greatest.
        - apply N.gcd_divide_r.
        - apply N.divide_trans with g; [apply N.gcd_divide_l|exact Hg1]. }
      apply N.gauss in Hg2; [|exact Hg3].
      apply N.divide_1_r. rewrite <- IH. now apply N.gcd_greatest. }
    exact Hg.
Qed.

Lemma ZofN_gcd a b : Z.of_N (N.gcd a b) = Z.gcd (Z.of_N a) (Z.of_N b).
Proof. destruct a, b; reflexivity. Qed.

Lemma odd_mul_inj w c a b :
  N.odd c = true -> wf w a -> wf w b -> wmul w c a = wmul w c b -> a = b.
Proof.
  intros Hc Ha Hb H. apply (f_equal Z.of_N) in H. rewrite !Zwmul in H.
  apply Zwf in Ha, Hb. apply N2Z.inj.
  set (m := (2 ^ Z.of_N w)%Z) in *.
  assert (Hm : (0 < m)%Z) by apply Zpow2_pos.
  assert (Hd : (m | Z.of_N c * (Z.of_N a - Z.of_N b))%Z).
  { apply Z.mod_divide; [lia|].
    rewrite Z.mul_sub_distr_l, Zminus_mod, H, Z.sub_diag. apply Z.mod_0_l. lia. }
  apply Z.gauss in Hd.
  - destruct Hd as [k Hk]. clearbody m.
    assert (Hk0 : (k = 0)%Z).
    { destruct (Z.lt_trichotomy k 0) as [?|[?|?]]; [exfalso; nia|assumption|exfalso; nia]. }
    subst k. lia.
  - unfold m. pose proof (gcd_odd_pow2 c w Hc) as Hg.
    apply (f_equal Z.of_N) in Hg. rewrite ZofN_gcd, N2Z.inj_pow in Hg. exact Hg.
Qed.

(* ---- bitwise facts ---- *)
Lemma lxor_cancel a b : N.lxor (N.lxor a b) b = a.
Proof. now rewrite N.lxor_assoc, N.lxor_nilpotent, N.lxor_0_r. Qed.
Lemma lxor_cancel_l a b : N.lxor b (N.lxor b a) = a.
Proof. now rewrite <- N.lxor_assoc, N.lxor_nilpotent, N.lxor_0_l. Qed.
Lemma lxor_inj_r a b c : N.lxor a c = N.lxor b c -> a = b.
Proof. intros H. rewrite <- (lxor_cancel a c), H. apply lxor_cancel. Qed.
Lemma lxor_inj_l a b c : N.lxor c a = N.lxor c b -> a = b.
Proof. rewrite !(N.lxor_comm c). apply lxor_inj_r. Qed.

Lemma trunc_spec w x i : N.testbit (trunc w x) i = (i <? w) && N.testbit x i.
Proof.
  unfold trunc. rewrite <- N.land_ones, N.land_spec.
  destruct (N.ltb_spec i w).
  - rewrite N.ones_spec_low by assumption. now rewrite andb_true_r.
  - rewrite N.ones_spec_high by assumption. now rewrite andb_false_r.
Qed.
Lemma wshl_spec w a k i :
  N.testbit (wshl w a k) i = (i <? w) && ((k <=? i) && N.testbit a (i - k)).
Proof.
  unfold wshl. fold (trunc w (N.shiftl a k)). rewrite trunc_spec. f_equal.
  destruct (N.leb_spec k i).
  - now rewrite N.shiftl_spec_high'.
  - now rewrite N.shiftl_spec_low.
Qed.
Lemma shr_spec a k i : N.testbit (N.shiftr a k) i = N.testbit a (i + k).
Proof. apply N.shiftr_spec'. Qed.

Lemma rotl_spec w a k i : wf w a -> k < w -> i < w ->
  N.testbit (rotl w a k) i = N.testbit a ((i + (w - k)) mod w).
Proof.
  intros Ha Hk Hi. unfold rotl. rewrite N.lor_spec, wshl_spec, shr_spec.
  rewrite (proj2 (N.ltb_lt i w) Hi). cbn [andb].
  destruct (N.leb_spec k i) as [Hl|Hl]; cbn [andb].
  - rewrite (proj1 (wf_testbit w a) Ha (i + (w - k))) by lia. rewrite orb_false_r.
    f_equal. replace (i + (w - k)) with ((i - k) + 1 * w) by lia.
    rewrite N.mod_add by lia. now rewrite N.mod_small by lia.
  - cbn [orb]. f_equal. now rewrite N.mod_small by lia.
Qed.
Lemma rotr_rotl w k a : k <= w -> rotr w a k = rotl w a (w - k).
Proof.
  intros Hk. unfold rotr, rotl. rewrite N.lor_comm. f_equal.
  f_equal. lia.
Qed.

Lemma wf_eq w a b : wf w a -> wf w b ->
  (forall i, i < w -> N.testbit a i = N.testbit b i) -> a = b.
Proof.
  intros Ha Hb H. apply N.bits_inj. intros i.
  destruct (N.lt_ge_cases i w) as [Hi|Hi]; [now apply H|].
  rewrite (proj1 (wf_testbit w a) Ha), (proj1 (wf_testbit w b) Hb) by exact Hi.
  reflexivity.
Qed.

Lemma rotl_rotl w a j k : wf w a -> j < w -> k < w -> 
  rotl w (rotl w a j) k = rotl w a ((j + k) mod w).
Proof.
  intros Ha Hj Hk. apply (wf_eq w); [auto with word..|].
  intros i Hi. assert (Hw : w <> 0) by lia.
  assert (Hjk : (j + k) mod w < w) by (now apply N.mod_lt).
  rewrite !rotl_spec; auto with word; [|now apply N.mod_lt].
  f_equal. rewrite N.add_mod_idemp_l by exact Hw.
  destruct (N.lt_ge_cases (j + k) w) as [Hl|Hl].
  - rewrite (N.mod_small (j + k)) by exact Hl.
    replace (i + (w - k) + (w - j)) with ((i + (w - (j + k))) + 1 * w) by lia.
    now rewrite N.mod_add.
  - replace (j + k) with ((j + k - w) + 1 * w) at 1 by lia.
    rewrite N.mod_add by exact Hw. rewrite (N.mod_small (j + k - w)) by lia.
    f_equal. lia.
Qed.
Lemma rotl_0 w a : wf w a -> rotl w a 0 = a.
Proof.
  intros Ha. unfold rotl, wshl. rewrite N.shiftl_0_r, N.sub_0_r.
  rewrite N.mod_small by exact Ha.
  rewrite N.shiftr_div_pow2, N.div_small by exact Ha. apply N.lor_0_r.
Qed.
Lemma rotr_rotl_inv w a k : wf w a -> 0 < k -> k < w -> rotr w (rotl w a k) k = a.
Proof.
  intros Ha H0 Hk. rewrite rotr_rotl by lia.
  rewrite rotl_rotl by (auto; lia).
  replace (k + (w - k)) with w by lia. rewrite N.mod_same by lia. now apply rotl_0.
Qed.
Lemma rotl_rotr_inv w a k : wf w a -> 0 < k -> k < w -> rotl w (rotr w a k) k = a.
Proof.
  intros Ha H0 Hk. rewrite rotr_rotl by lia.
  rewrite rotl_rotl by (auto; lia).
  replace (w - k + k) with w by lia. rewrite N.mod_same by lia. now apply rotl_0.
Qed.
Lemma rotl_inj w k a b : wf w a -> wf w b -> 0 < k -> k < w ->
  rotl w a k = rotl w b k -> a = b.
Proof.
  intros Ha Hb H0 Hk H.
  rewrite <- (rotr_rotl_inv w a k), H by assumption. now apply rotr_rotl_inv.
Qed.
Lemma rotr_inj w k a b : wf w a -> wf w b -> 0 < k -> k < w ->
  rotr w a k = rotr w b k -> a = b.
Proof.
  intros Ha Hb H0 Hk H.
  rewrite <- (rotl_rotr_inv w a k), H by assumption. now apply rotl_rotr_inv.
Qed.

(* linearity over GF(2): unconditional *)
Lemma trunc_lxor w a b : trunc w (N.lxor a b) = N.lxor (trunc w a) (trunc w b).
Proof.
  apply N.bits_inj. intros i. rewrite N.lxor_spec, !trunc_spec, N.lxor_spec.
  destruct (i <? w), (N.testbit a i), (N.testbit b i); reflexivity.
Qed.
Lemma shiftl_lxor a b k : N.shiftl (N.lxor a b) k = N.lxor (N.shiftl a k) (N.shiftl b k).
Proof. apply N.shiftl_lxor. Qed.
Lemma shiftr_lxor a b k : N.shiftr (N.lxor a b) k = N.lxor (N.shiftr a k) (N.shiftr b k).
Proof. apply N.shiftr_lxor. Qed.
Lemma wshl_lxor w a b k : wshl w (N.lxor a b) k = N.lxor (wshl w a k) (wshl w b k).
Proof. unfold wshl. rewrite shiftl_lxor. apply trunc_lxor. Qed.

(* For a word in range the two halves of a rotation do not overlap, so | is ^. *)
Lemma rotl_xor w a k : wf w a -> k < w ->
  rotl w a k = N.lxor (wshl w a k) (N.shiftr a (w - k)).
Proof.
  intros Ha Hk. unfold rotl. apply N.bits_inj. intros i.
  rewrite N.lor_spec, N.lxor_spec, wshl_spec, shr_spec.
  destruct (N.ltb_spec i w) as [Hi|Hi]; cbn [andb].
  - destruct (N.leb_spec k i) as [Hl|Hl]; cbn [andb].
    + rewrite (proj1 (wf_testbit w a) Ha (i + (w - k))) by lia.
      now rewrite orb_false_r, xorb_false_r.
    + now rewrite orb_false_l, xorb_false_l.
  - now rewrite orb_false_l, xorb_false_l.
Qed.

(* x ^ (x >> k), k > 0, is injective *)
Lemma xsr_inj k a b : 0 < k ->
  N.lxor a (N.shiftr a k) = N.lxor b (N.shiftr b k) -> a = b.
Proof.
  intros Hk H. apply N.lxor_eq.
  assert (Hd : N.lxor a b = N.shiftr (N.lxor a b) k).
  { rewrite shiftr_lxor. 
    apply (lxor_inj_r _ _ (N.lxor b (N.shiftr a k))).
    rewrite (N.lxor_comm b (N.shiftr a k)) at 2.
    rewrite <- !N.lxor_assoc.
    rewrite (N.lxor_assoc a b b), N.lxor_nilpotent, N.lxor_0_r, H.
    rewrite (N.lxor_comm (N.shiftr a k) (N.shiftr b k)).
    rewrite (N.lxor_assoc (N.shiftr b k)), N.lxor_nilpotent, N.lxor_0_r.
    apply N.lxor_comm. }
  set (d := N.lxor a b) in *. rewrite N.shiftr_div_pow2 in Hd.
  destruct (N.eq_dec d 0) as [E|E]; [exact E|].
  exfalso. assert (d / 2 ^ k < d).
  { apply N.div_lt; [lia|]. apply N.lt_le_trans with (2 ^ 1); [reflexivity|].
    apply N.pow_le_mono_r; lia. }
  lia.
Qed.

(* x ^ (x << k) truncated, k > 0, is injective on words *)
Lemma xsl_inj w k a b : 0 < k -> wf w a -> wf w b ->
  N.lxor a (wshl w a k) = N.lxor b (wshl w b k) -> a = b.
Proof.
  intros Hk Ha Hb H. apply (wf_eq w); [assumption..|].
  intros i. induction i as [i IH] using (well_founded_induction N.lt_wf_0).
  intros Hi. apply (f_equal (fun x => N.testbit x i)) in H.
  rewrite !N.lxor_spec, !wshl_spec in H.
  rewrite (proj2 (N.ltb_lt i w) Hi) in H. cbn [andb] in H.
  destruct (N.leb_spec k i) as [Hl|Hl]; cbn [andb] in H.
  - rewrite (IH (i - k)) in H by lia.
    destruct (N.testbit a i), (N.testbit b i), (N.testbit b (i - k)); easy.
  - now rewrite !xorb_false_r in H.
Qed.
(* masked variants, as in Mersenne Twister tempering *)
Lemma xslm_inj w k m a b : 0 < k -> wf w a -> wf w b ->
  N.lxor a (N.land (wshl w a k) m) = N.lxor b (N.land (wshl w b k) m) -> a = b.
Proof.
  intros Hk Ha Hb H. apply (wf_eq w); [assumption..|].
  intros i. induction i as [i IH] using (well_founded_induction N.lt_wf_0).
  intros Hi. apply (f_equal (fun x => N.testbit x i)) in H.
  rewrite !N.lxor_spec, !N.land_spec, !wshl_spec in H.
  rewrite (proj2 (N.ltb_lt i w) Hi) in H. cbn [andb] in H.
  destruct (N.leb_spec k i) as [Hl|Hl]; cbn [andb] in H.
  - rewrite (IH (i - k)) in H by lia.
    destruct (N.testbit a i), (N.testbit b i), (N.testbit b (i - k)), (N.testbit m i); easy.
  - now rewrite !xorb_false_r in H.
Qed.
(* (x >> k) & m, by descending induction on the bit *)
Lemma xsrm_inj w k m a b : 0 < k -> wf w a -> wf w b ->
  N.lxor a (N.land (N.shiftr a k) m) = N.lxor b (N.land (N.shiftr b k) m) -> a = b.
Proof.
  intros Hk Ha Hb H. apply (wf_eq w); [assumption..|].
  intros i Hi. remember (w - i) as j eqn:Hj. revert i Hi Hj.
  induction j as [j IH] using (well_founded_induction N.lt_wf_0).
  intros i Hi Hj. apply (f_equal (fun x => N.testbit x i)) in H.
  rewrite !N.lxor_spec, !N.land_spec, !shr_spec in H.
  assert (E : N.testbit a (i + k) = N.testbit b (i + k)).
  { destruct (N.lt_ge_cases (i + k) w) as [Hl|Hl].
    - apply (IH (w - (i + k))); lia.
    - now rewrite (proj1 (wf_testbit w a) Ha), (proj1 (wf_testbit w b) Hb). }
  rewrite E in H.
  destruct (N.testbit a i), (N.testbit b i), (N.testbit b (i + k)), (N.testbit m i); easy.
Qed.

(* iteration *)
Fixpoint iter_nat {A} (n : nat) (f : A -> A) (x : A) : A :=
  match n with O => x | S n => iter_nat n f (f x) end.
Lemma iter_nat_S {A} n (f : A -> A) x : iter_nat (S n) f x = f (iter_nat n f x).
Proof. revert x; induction n as [|n IH]; intros x; [reflexivity|]. cbn in *. apply IH. Qed.
Lemma iter_nat_add {A} m n (f : A -> A) x :
  iter_nat (m + n) f x = iter_nat n f (iter_nat m f x).
Proof. revert x; induction m as [|m IH]; intros x; cbn; [reflexivity|apply IH]. Qed.
Lemma Niter_succ {A} n (f : A -> A) x : N.iter (N.succ n) f x = f (N.iter n f x).
Proof. apply N.iter_succ. Qed.
Lemma Niter_nat {A} n (f : A -> A) x : N.iter n f x = iter_nat (N.to_nat n) f x.
Proof.
  induction n as [|n IH] using N.peano_ind; [reflexivity|].
  now rewrite N.iter_succ, N2Nat.inj_succ, iter_nat_S, IH.
Qed.
Lemma Niter_add {A} m n (f : A -> A) x : N.iter (m + n) f x = N.iter n f (N.iter m f x).
Proof. now rewrite !Niter_nat, N2Nat.inj_add, iter_nat_add. Qed.
Lemma Niter_comm {A} n (f : A -> A) x : N.iter n f (f x) = f (N.iter n f x).
Proof.
  induction n as [|n IH] using N.peano_ind; [reflexivity|].
  now rewrite !N.iter_succ, IH.
Qed.
Lemma Niter_mul {A} m n (f : A -> A) x :
  N.iter (m * n) f x = N.iter n (fun y => N.iter m f y) x.
Proof.
  induction n as [|n IH] using N.peano_ind.
  - now rewrite N.mul_0_r.
  - now rewrite N.iter_succ, <- IH, N.mul_succ_r, Niter_add.
Qed.
Lemma Niter_inv {A} (P : A -> Prop) n (f : A -> A) x :
  (forall y, P y -> P (f y)) -> P x -> P (N.iter n f x).
Proof. intros Hf Hx. induction n as [|n IH] using N.peano_ind; [exact Hx|]. rewrite N.iter_succ. auto. Qed.
Lemma Niter_inj {A} (P : A -> Prop) n (f : A -> A) x y :
  (forall a, P a -> P (f a)) -> (forall a b, P a -> P b -> f a = f b -> a = b) ->
  P x -> P y -> N.iter n f x = N.iter n f y -> x = y.
Proof.
  intros Hf Hi Hx Hy. induction n as [|n IH] using N.peano_ind; [easy|].
  rewrite !N.iter_succ. intros H. apply Hi in H; [auto|now apply Niter_inv..].
Qed.

(* The stream of values produced by repeated draws: value number n. *)
Definition stream {S O} (step : S -> S) (out : S -> O) (s : S) (n : N) : O :=
  out (N.iter n step s).

(* x ^ (x >> k) is injective *)
Lemma lxor_shr_inj w k a b : 0 < k -> wf w a -> wf w b ->
  N.lxor a (N.shiftr a k) = N.lxor b (N.shiftr b k) -> a = b.
Proof.
  intros Hk Ha Hb E. apply N.bits_inj. intros i.
  assert (H : forall n i, w - N.of_nat n <= i -> N.testbit a i = N.testbit b i).
  { induction n as [|n IH]; intros m Hm.
    - rewrite (proj1 (wf_testbit w a) Ha), (proj1 (wf_testbit w b) Hb) by lia. reflexivity.
    - assert (Em := f_equal (fun x => N.testbit x m) E). cbv beta in Em.
      rewrite !N.lxor_spec, !N.shiftr_spec' in Em. rewrite (IH (m + k)) in Em by lia.
      destruct (N.testbit a m), (N.testbit b m), (N.testbit b (m + k)); auto; discriminate. }
  apply (H (N.to_nat w)). lia.
Qed.
