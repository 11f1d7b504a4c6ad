(* C46: UserBitGenerator *)
From Verif Require Import Word Wrapper.
From Coq Require Import ZifyBool ZifyNat ZifyN.
Open Scope Z_scope.
Ltac Zify.zify_post_hook ::= idtac.

Lemma join_z u v : 0 <= u < 2 ^ 32 -> 0 <= v < 2 ^ 32 -> Z.lor (Z.shiftl u 32) v = u * 2 ^ 32 + v.
Proof.
  intros Hu Hv. rewrite Z.shiftl_mul_pow2 by lia.
  symmetry. rewrite Z.add_nocarry_lxor.
  - apply Z.bits_inj'. intros i Hi. rewrite Z.lxor_spec, Z.lor_spec. destruct (Z_lt_dec i 32) as [L|L].
    + rewrite Z.mul_pow2_bits_low by lia. now destruct (Z.testbit v i).
    + replace (Z.testbit v i) with false; [now destruct (Z.testbit _ i)|]. symmetry. rewrite <- (Z.mod_small v (2 ^ 32)) by lia. apply Z.mod_pow2_bits_high. lia.
  - apply Z.bits_inj'. intros i Hi. rewrite Z.land_spec, Z.bits_0. destruct (Z_lt_dec i 32) as [L|L].
    + now rewrite Z.mul_pow2_bits_low by lia.
    + replace (Z.testbit v i) with false; [apply andb_false_r|]. symmetry. rewrite <- (Z.mod_small v (2 ^ 32)) by lia. apply Z.mod_pow2_bits_high. lia.
Qed.
(* bits=64: every function consumes one raw value *)
Theorem C46_bits_64 :
  forall A (raw : A -> A * Z) a, 0 <= snd (raw a) < 2 ^ 64 ->
  let '(a1, u) := raw a in
  u_next64 raw 64 a = (a1, u) /\ u_next32 raw 64 a = (a1, u / 2 ^ 32) /\ u_double raw 64 a = (a1, u / 2 ^ 11) /\
  0 <= u / 2 ^ 32 < 2 ^ 32 /\ 0 <= u / 2 ^ 11 < 2 ^ 53.
Proof.
  intros A raw a. unfold u_next64, u_next32, u_double, raw_64_to_32, raw_64_to_double, u_raw, c_u64, c_u32. cbn [Z.eqb].
  change (64 =? 64) with true. change (64 =? 32) with false. cbv iota. destruct (raw a) as [a1 u]. cbn [snd]. intros H.
  rewrite !Z.shiftr_div_pow2 by lia. rewrite (Z.mod_small u) by lia.
  assert (0 <= u / 2 ^ 32 < 2 ^ 32) by (split; [apply Z.div_pos; lia|apply Z.div_lt_upper_bound; lia]).
  assert (0 <= u / 2 ^ 11 < 2 ^ 53) by (split; [apply Z.div_pos; lia|apply Z.div_lt_upper_bound; lia]).
  rewrite (Z.mod_small (u / 2 ^ 32)) by lia. repeat split; lia.
Qed.
(* bits=32: two, one and two values *)
Theorem C46_bits_32 :
  forall A (raw : A -> A * Z) a, 0 <= snd (raw a) < 2 ^ 32 -> 0 <= snd (raw (fst (raw a))) < 2 ^ 32 ->
  let '(a1, u) := raw a in let '(a2, v) := raw a1 in
  u_next64 raw 32 a = (a2, u * 2 ^ 32 + v) /\ u_next32 raw 32 a = (a1, u) /\ u_double raw 32 a = (a2, u / 2 ^ 5 * 2 ^ 26 + v / 2 ^ 6) /\
  0 <= u * 2 ^ 32 + v < 2 ^ 64 /\ 0 <= u / 2 ^ 5 * 2 ^ 26 + v / 2 ^ 6 < 2 ^ 53.
Proof.
  intros A raw a. unfold u_next64, u_next32, u_double, raw_32_to_64, raw_32_to_double, u_raw, c_u64, c_u32.
  change (32 =? 64) with false. change (32 =? 32) with true. cbv iota. destruct (raw a) as [a1 u]. cbn [fst snd]. destruct (raw a1) as [a2 v]. cbn [snd]. intros Hu Hv.
  rewrite join_z by assumption. rewrite !Z.shiftr_div_pow2 by lia. rewrite (Z.mod_small (u * 2 ^ 32 + v)) by lia. rewrite (Z.mod_small u (2 ^ 64)), (Z.mod_small u) by lia.
  assert (0 <= u / 2 ^ 5 < 2 ^ 27) by (split; [apply Z.div_pos; lia|apply Z.div_lt_upper_bound; lia]).
  assert (0 <= v / 2 ^ 6 < 2 ^ 26) by (split; [apply Z.div_pos; lia|apply Z.div_lt_upper_bound; lia]).
  change 67108864 with (2 ^ 26). repeat split; lia.
Qed.
Example C46_case :
  let raw := fun s : Z => (s + 1, s * 1000000007 mod 2 ^ 32) in
  u_next64 raw 32 5 = (7, (5 * 1000000007 mod 2 ^ 32) * 2 ^ 32 + 6 * 1000000007 mod 2 ^ 32) /\ u_next32 raw 32 5 = (6, 5 * 1000000007 mod 2 ^ 32).
Proof. split; vm_compute; reflexivity. Qed.
(* a raw function that returns more than 64 bits, or a negative number, is reduced *)
Theorem C46_raw_reduced :
  forall A (raw : A -> A * Z) a, 0 <= snd (u_raw raw a) < 2 ^ 64 /\ 0 <= snd (u_next64 raw 64 a) < 2 ^ 64 /\ 0 <= snd (u_next32 raw 64 a) < 2 ^ 32.
Proof.
  intros A raw a. unfold u_next64, u_next32, u_raw, raw_64_to_32, c_u64, c_u32. change (64 =? 64) with true. change (64 =? 32) with false. cbv iota.
  destruct (raw a) as [a1 u]. cbn [snd]. repeat split; apply Z.mod_pos_bound; reflexivity.
Qed.
(* other values of bits are not rejected: the functions are then combined as if raw
   returned 64 bits for 32-bit values and 32 bits for 64-bit ones; a 16-bit source
   gives the constant 0 as 32-bit stream *)
Theorem C46_bits_unchecked_refuted :
  forall A (raw : A -> A * Z) a, (forall b, 0 <= snd (raw b) < 2 ^ 16) -> snd (u_next32 raw 16 a) = 0.
Proof.
  intros A raw a H. unfold u_next32, raw_64_to_32, c_u32. change (16 =? 32) with false. cbv iota. specialize (H a). destruct (raw a) as [a1 u]. cbn [snd] in *.
  rewrite Z.shiftr_div_pow2, Z.div_small by lia. reflexivity.
Qed.

Print Assumptions C46_bits_64.
Print Assumptions C46_bits_32.
Print Assumptions C46_raw_reduced.
Print Assumptions C46_bits_unchecked_refuted.
