(* C49: the output functions; C22: 64-bit values made of two 32-bit ones; C21: the
   spelling of Romu's variant *)
From Verif Require Import Word Finite Buffer32 Py Pcg PcgFacts Xoshiro Squares Tyche Romu.
From Coq Require Import String Ascii ZifyBool ZifyNat ZifyN.
Open Scope N_scope.
Ltac Zify.zify_post_hook ::= idtac.

(* the rotations of pcg, written with a masked count, are rotations for every count *)
Theorem C49_pcg_rotr_64 :
  forall v r, v < 2 ^ 64 -> r < 64 -> pcg_rotr_64 v r = if r =? 0 then v else rotr 64 v r.
Proof.
  intros v r Hv Hr. unfold pcg_rotr_64. destruct (N.eqb_spec r 0) as [->|N0].
  - change ((64 - 0) mod 64) with 0. rewrite N.shiftr_0_r. unfold wshl. rewrite N.shiftl_0_r, N.mod_small by exact Hv. apply N.lor_diag.
  - rewrite N.mod_small by lia. reflexivity.
Qed.
Theorem C49_pcg_rotr_32 :
  forall v r, v < 2 ^ 32 -> r < 32 -> pcg_rotr_32 v r = if r =? 0 then v else rotr 32 v r.
Proof.
  intros v r Hv Hr. unfold pcg_rotr_32. destruct (N.eqb_spec r 0) as [->|N0].
  - change ((32 - 0) mod 32) with 0. rewrite N.shiftr_0_r. unfold wshl. rewrite N.shiftl_0_r, N.mod_small by exact Hv. apply N.lor_diag.
  - rewrite N.mod_small by lia. reflexivity.
Qed.
Lemma pcg_rotr_64_inj r a b : a < 2 ^ 64 -> b < 2 ^ 64 -> r < 64 -> pcg_rotr_64 a r = pcg_rotr_64 b r -> a = b.
Proof.
  intros Ha Hb Hr. rewrite !C49_pcg_rotr_64 by assumption. destruct (N.eqb_spec r 0) as [E|E]; [auto|]. intros H. apply (rotr_inj 64 r); [exact Ha|exact Hb|lia|lia|exact H].
Qed.
Lemma pcg_rotr_32_inj r a b : a < 2 ^ 32 -> b < 2 ^ 32 -> r < 32 -> pcg_rotr_32 a r = pcg_rotr_32 b r -> a = b.
Proof.
  intros Ha Hb Hr. rewrite !C49_pcg_rotr_32 by assumption. destruct (N.eqb_spec r 0) as [E|E]; [auto|]. intros H. apply (rotr_inj 32 r); [exact Ha|exact Hb|lia|lia|exact H].
Qed.
Lemma pcg_rotr_64_wf v r : v < 2 ^ 64 -> r < 64 -> pcg_rotr_64 v r < 2 ^ 64.
Proof. intros Hv Hr. rewrite C49_pcg_rotr_64 by assumption. destruct (r =? 0); [exact Hv|]. now apply wf_rotr. Qed.
Lemma high6 h : h < 2 ^ 64 -> N.shiftr h 58 < 64.
Proof. intros H. rewrite N.shiftr_div_pow2. apply N.div_lt_upper_bound; [discriminate|exact H]. Qed.

(* PCG64's XSL-RR output, for every high half, is a bijection of the low half: every
   64-bit value has exactly 2^64 pre-images among the states *)
Theorem C49_xsl_rr_bijective :
  forall h v, h < 2 ^ 64 -> v < 2 ^ 64 -> exists l, l < 2 ^ 64 /\ out_xsl_rr h l = v /\ forall m, m < 2 ^ 64 -> out_xsl_rr h m = v -> m = l.
Proof.
  intros h v Hh Hv. pose proof (high6 h Hh) as R.
  assert (I : forall i j, i < 2 ^ 64 -> j < 2 ^ 64 -> out_xsl_rr h i = out_xsl_rr h j -> i = j).
  { intros i j Hi Hj E. unfold out_xsl_rr in E. apply pcg_rotr_64_inj in E; [now apply lxor_inj_l in E|now apply wf_lxor|now apply wf_lxor|exact R]. }
  destruct (inj_surj (2 ^ 64) (out_xsl_rr h)) with (y := v) as (l & Hl & E); [|exact I|exact Hv|].
  - intros i Hi. apply pcg_rotr_64_wf; [now apply wf_lxor|exact R].
  - exists l. split; [exact Hl|]. split; [exact E|]. intros m Hm Em. apply I; [exact Hm|exact Hl|congruence].
Qed.
(* DXSM with an odd multiplier is, for every low half, a bijection of the high half *)
Lemma lor1_odd l : N.odd (N.lor l 1) = true.
Proof. rewrite <- N.bit0_odd, N.lor_spec. apply orb_true_r. Qed.
Theorem C49_dxsm_bijective :
  forall m l v, N.odd m = true -> l < 2 ^ 64 -> v < 2 ^ 64 ->
  exists h, h < 2 ^ 64 /\ out_dxsm m h l = v /\ forall k, k < 2 ^ 64 -> out_dxsm m k l = v -> k = h.
Proof.
  intros m l v Hm Hl Hv.
  assert (I : forall i j, i < 2 ^ 64 -> j < 2 ^ 64 -> out_dxsm m i l = out_dxsm m j l -> i = j).
  { intros i j Hi Hj E. unfold out_dxsm in E. rewrite !(wmul_comm 64 _ (N.lor l 1)) in E.
    apply odd_mul_inj in E; [|apply lor1_odd|auto using wf_lxor, wf_shr, wf_wmul..]. apply xsr_inj in E; [|lia].
    rewrite !(wmul_comm 64 _ m) in E. apply odd_mul_inj in E; [|exact Hm|apply wf_lxor; auto using wf_shr..]. apply xsr_inj in E; [exact E|lia]. }
  destruct (inj_surj (2 ^ 64) (fun h => out_dxsm m h l)) with (y := v) as (h & Hh & E); [|exact I|exact Hv|].
  - intros i Hi. apply wf_wmul.
  - exists h. split; [exact Hh|]. split; [exact E|]. intros k Hk Ek. apply I; [exact Hk|exact Hh|congruence].
Qed.
Theorem C49_pcg_cheap_multiplier_odd : N.odd PCG_CHEAP_MULT = true. Proof. reflexivity. Qed.
(* an even dxsm multiplier, which LCG128Mix accepts, merges high halves *)
Theorem C49_dxsm_even_refuted : exists h k, h < 2 ^ 64 /\ k < 2 ^ 64 /\ h <> k /\ forall l, out_dxsm (2 ^ 63) h l = out_dxsm (2 ^ 63) k l.
Proof. exists 0, 2. repeat split; try discriminate. Qed.
(* murmur3 uses the high half alone, bijectively *)
Theorem C49_murmur3_injective :
  forall h k l m, h < 2 ^ 64 -> k < 2 ^ 64 -> out_murmur3 h l = out_murmur3 k m -> h = k.
Proof.
  intros h k l m Hh Hk H. unfold out_murmur3 in H. apply xsr_inj in H; [|lia].
  rewrite !(wmul_comm 64 _ 0x94d049bb133111eb) in H. apply odd_mul_inj in H; [|reflexivity|auto using wf_lxor, wf_shr, wf_wmul..].
  apply xsr_inj in H; [|lia]. rewrite !(wmul_comm 64 _ 0xbf58476d1ce4e5b9) in H. apply odd_mul_inj in H; [|reflexivity|apply wf_lxor; auto using wf_shr..].
  apply xsr_inj in H; [exact H|lia].
Qed.
(* PCG32: the output together with the top 5 bits determines bits 27 to 58 of the
   xorshifted state, so among the states with the same top 5 and low 27 bits every
   output comes up exactly once *)
Theorem C49_xsh_rr_injective :
  forall s t, s < 2 ^ 64 -> t < 2 ^ 64 -> N.shiftr s 59 = N.shiftr t 59 -> s mod 2 ^ 27 = t mod 2 ^ 27 -> xsh_rr s = xsh_rr t -> s = t.
Proof.
  intros s t Hs Ht E1 E2 H. unfold xsh_rr in H. rewrite <- E1 in H.
  assert (R : N.shiftr s 59 < 32) by (rewrite N.shiftr_div_pow2; apply N.div_lt_upper_bound; [discriminate|exact Hs]).
  apply pcg_rotr_32_inj in H; [|apply wf_trunc|apply wf_trunc|exact R].
  apply N.bits_inj. intros i. 
  assert (Hi : forall j, 59 <= j -> N.testbit s j = N.testbit t j).
  { intros j Hj. replace j with (j - 59 + 59) by lia. rewrite <- !N.shiftr_spec by lia. now rewrite E1. }
  assert (Lo : forall j, j < 27 -> N.testbit s j = N.testbit t j).
  { intros j Hj. rewrite <- (N.mod_pow2_bits_low s 27 j), <- (N.mod_pow2_bits_low t 27 j) by exact Hj. now rewrite E2. }
  assert (Mid : forall j, 27 <= j -> j < 59 -> N.testbit s j = xorb (N.testbit t j) (xorb (N.testbit s (j + 18)) (N.testbit t (j + 18)))).
  { intros j J1 J2. apply (f_equal (fun x => N.testbit x (j - 27))) in H. rewrite !trunc_spec, !N.shiftr_spec, !N.lxor_spec, !N.shiftr_spec in H by lia.
    replace (j - 27 + 27) with j in H by lia. replace (j - 27 <? 32) with true in H by lia. cbn [andb] in H.
    revert H. destruct (N.testbit s j), (N.testbit t j), (N.testbit s (j + 18)), (N.testbit t (j + 18)); cbn; congruence. }
  destruct (N.lt_ge_cases i 27) as [A|A]; [now apply Lo|]. destruct (N.lt_ge_cases i 59) as [B|B]; [|now apply Hi].
  assert (G : N.testbit s (i + 18) = N.testbit t (i + 18)).
  { destruct (N.lt_ge_cases (i + 18) 59) as [C|C]; [|now apply Hi]. rewrite Mid by lia.
    replace (N.testbit s (i + 18 + 18)) with (N.testbit t (i + 18 + 18)); [now rewrite xorb_nilpotent, xorb_false_r|].
    symmetry. apply Hi. lia. }
  rewrite Mid by assumption. now rewrite G, xorb_nilpotent, xorb_false_r.
Qed.
(* Xoshiro: the starstar scrambler is a bijection of the word it scrambles *)
Theorem C49_starstar_bijective :
  forall v, v < 2 ^ 64 -> exists x, x < 2 ^ 64 /\ wmul 64 (rotl 64 (wmul 64 x 5) 7) 9 = v /\
  forall y, y < 2 ^ 64 -> wmul 64 (rotl 64 (wmul 64 y 5) 7) 9 = v -> y = x.
Proof.
  intros v Hv.
  assert (I : forall i j, i < 2 ^ 64 -> j < 2 ^ 64 -> wmul 64 (rotl 64 (wmul 64 i 5) 7) 9 = wmul 64 (rotl 64 (wmul 64 j 5) 7) 9 -> i = j).
  { intros i j Hi Hj E. rewrite !(wmul_comm 64 _ 9) in E. apply odd_mul_inj in E; [|reflexivity|apply wf_rotl, wf_wmul..].
    apply rotl_inj in E; [|apply wf_wmul|apply wf_wmul|lia|lia]. rewrite !(wmul_comm 64 _ 5) in E. apply odd_mul_inj in E; [exact E|reflexivity|exact Hi|exact Hj]. }
  destruct (inj_surj (2 ^ 64) (fun x => wmul 64 (rotl 64 (wmul 64 x 5) 7) 9)) with (y := v) as (x & Hx & E); [|exact I|exact Hv|].
  - intros i Hi. apply wf_wmul.
  - exists x. split; [exact Hx|]. split; [exact E|]. intros y Hy Ey. apply I; [exact Hy|exact Hx|congruence].
Qed.
Theorem C49_xoshiro_outputs :
  forall a b c d s, xoshiro256_out (V4 a b c d) = wmul 64 (rotl 64 (wmul 64 b 5) 7) 9 /\ xoshiro512_out s = wmul 64 (rotl 64 (wmul 64 (v8_1 s) 5) 7) 9.
Proof. intros. split; reflexivity. Qed.
Example C49_case : out_xsl_rr (5 * 2 ^ 60) 7 = 128642860449792 /\ xsh_rr 0x185706b82c2e03f8 <> xsh_rr 0x185706b82c2e03f9 + 1 /\ out_dxsm PCG_CHEAP_MULT 1 0 = 15750249268501119521.
Proof. vm_compute. repeat split. discriminate. Qed.

(* ------------------------------------------------------------------- C22 *)
Lemma join64 a b : a < 2 ^ 32 -> b < 2 ^ 32 -> N.lor (wshl 64 a 32) b = a * 2 ^ 32 + b.
Proof.
  intros Ha Hb. unfold wshl. rewrite N.shiftl_mul_pow2, N.mod_small by (change (2 ^ 64) with (2 ^ 32 * 2 ^ 32); nia).
  symmetry. rewrite <- N.shiftl_mul_pow2. 
  rewrite N.add_nocarry_lxor.
  - symmetry. apply N.bits_inj. intros i. rewrite N.lor_spec, N.lxor_spec. destruct (N.lt_ge_cases i 32) as [H|H].
    + rewrite N.shiftl_spec_low by exact H. now destruct (N.testbit b i).
    + rewrite (proj1 (wf_testbit 32 b) Hb i H). now destruct (N.testbit _ i).
  - apply N.bits_inj. intros i. rewrite N.land_spec, N.bits_0. destruct (N.lt_ge_cases i 32) as [H|H].
    + now rewrite N.shiftl_spec_low by exact H.
    + rewrite (proj1 (wf_testbit 32 b) Hb i H). apply andb_false_r.
Qed.
(* Squares(variant=32): a 64-bit value is two 32-bit values; which of them is the
   low half depends on the compiler's evaluation order *)
Theorem C22_squares32_64_from_32 :
  forall lr s, let '(s1, u) := squares32 s in let '(s2, v) := squares32 s1 in
  u < 2 ^ 32 -> v < 2 ^ 32 ->
  squares_32_next64 lr s = (s2, if lr then v * 2 ^ 32 + u else u * 2 ^ 32 + v).
Proof.
  intros lr s. unfold squares_32_next64. destruct (squares32 s) as [s1 u]. destruct (squares32 s1) as [s2 v]. intros Hu Hv.
  rewrite N.lor_comm, (N.lor_comm v). rewrite !join64 by assumption. reflexivity.
Qed.
Theorem C22_tyche_64_from_32 :
  forall lr s, let '(s1, u) := ty_next32 s in let '(s2, v) := ty_next32 s1 in
  u < 2 ^ 32 -> v < 2 ^ 32 ->
  ty_next64 lr s = (s2, if lr then u * 2 ^ 32 + v else v * 2 ^ 32 + u).
Proof.
  intros lr s. unfold ty_next64. destruct (ty_next32 s) as [s1 u]. destruct (ty_next32 s1) as [s2 v]. intros Hu Hv.
  rewrite !join64 by assumption. reflexivity.
Qed.

(* ------------------------------------------------------------------- C21 *)
(* Romu's variant may be spelt in any mixture of cases *)
Definition upper_ascii (c : ascii) : ascii := let n := N_of_ascii c in if (97 <=? n) && (n <=? 122) then ascii_of_N (n - 32) else c.
Fixpoint upper_string (s : string) : string := match s with EmptyString => EmptyString | String c s => String (upper_ascii c) (upper_string s) end.
Lemma lower_upper c : lower (upper_ascii c) = lower c.
Proof. destruct c as [[] [] [] [] [] [] [] []]; reflexivity. Qed.
Lemma slower_upper s : slower (upper_string s) = slower s.
Proof. induction s as [|c s IH]; [reflexivity|]. cbn [upper_string slower]. now rewrite lower_upper, IH. Qed.
Theorem C21_romu_variant_case :
  forall s t, slower s = slower t -> check_variant (PStr s) = check_variant (PStr t).
Proof. intros s t H. unfold check_variant. now rewrite H. Qed.
Theorem C21_romu_variant_upper :
  forall s, check_variant (PStr (upper_string s)) = check_variant (PStr s).
Proof. intros s. apply C21_romu_variant_case, slower_upper. Qed.
Example C21_romu_variant : check_variant (PStr "QUAD") = Ok true /\ check_variant (PStr "TrIo") = Ok false /\ check_variant (PStr "qua") = Raise ValueError.
Proof. repeat split. Qed.

Print Assumptions C49_pcg_rotr_64.
Print Assumptions C49_pcg_rotr_32.
Print Assumptions C49_xsl_rr_bijective.
Print Assumptions C49_dxsm_bijective.
Print Assumptions C49_pcg_cheap_multiplier_odd.
Print Assumptions C49_dxsm_even_refuted.
Print Assumptions C49_murmur3_injective.
Print Assumptions C49_xsh_rr_injective.
Print Assumptions C49_starstar_bijective.
Print Assumptions C49_xoshiro_outputs.
Print Assumptions C22_squares32_64_from_32.
Print Assumptions C22_tyche_64_from_32.
Print Assumptions C21_romu_variant_case.
Print Assumptions C21_romu_variant_upper.
