(* DSFMT: jump() and jumped() with the polynomials of dSFMT-poly.h *)
From Verif Require Import Word Arr Py Half Lagged LaggedBuf JumpN SfmtSeed Sfmt Lanes SfmtFacts Dsfmt DsfmtFacts PropSfmt PropDsfmt PolyText DsfmtPoly DsfmtChk DsfmtJump.
From Coq Require Import ZifyBool ZifyNat ZifyN.
Open Scope N_scope.
Ltac Zify.zify_post_hook ::= idtac.

(* jump(iter) of the library *)
Definition ds_jump_lib : Z -> lb -> option (outcome lb) := ds_jump_py dsfmt_polys.

(* ------------------------------------------------------------------- C16 *)
(* the five stored polynomials move every sequence of doubles in [1, 2), and its lung, by
   2^128, 2^132, 2^136, 2^140 and 2^144 words of 128 bits *)
Theorem C16_dsfmt_stored_polynomials :
  forall x u, (forall n, unit_word (x n) /\ u n < 2 ^ 128) -> published x u -> forall n,
  (lpol (text_bits dsfmt_poly_128) x n = x (2 ^ 128 + n) /\ lpol (text_bits dsfmt_poly_128) u n = u (2 ^ 128 + n)) /\
  (lpol (text_bits dsfmt_poly_132) x n = x (2 ^ 132 + n) /\ lpol (text_bits dsfmt_poly_132) u n = u (2 ^ 132 + n)) /\
  (lpol (text_bits dsfmt_poly_136) x n = x (2 ^ 136 + n) /\ lpol (text_bits dsfmt_poly_136) u n = u (2 ^ 136 + n)) /\
  (lpol (text_bits dsfmt_poly_140) x n = x (2 ^ 140 + n) /\ lpol (text_bits dsfmt_poly_140) u n = u (2 ^ 140 + n)) /\
  (lpol (text_bits dsfmt_poly_144) x n = x (2 ^ 144 + n) /\ lpol (text_bits dsfmt_poly_144) u n = u (2 ^ 144 + n)).
Proof.
  intros x u W P n. destruct dsfmt_polys_move as (M4 & M3 & M2 & M1 & M0).
  split; [exact (M0 x u W P n)|]. split; [exact (M1 x u W P n)|]. split; [exact (M2 x u W P n)|]. split; [exact (M3 x u W P n)|exact (M4 x u W P n)].
Qed.
(* the loop reads hexadecimal digits only: its assertion holds *)
Theorem C16_dsfmt_strings_are_hexadecimal :
  text_hex dsfmt_poly_128 = true /\ text_hex dsfmt_poly_132 = true /\ text_hex dsfmt_poly_136 = true /\ text_hex dsfmt_poly_140 = true /\ text_hex dsfmt_poly_144 = true.
Proof.
  pose proof ds_text_hex as H. cbn [forallb] in H. apply andb_prop in H. destruct H as [H0 H]. apply andb_prop in H. destruct H as [H1 H]. apply andb_prop in H. destruct H as [H2 H].
  apply andb_prop in H. destruct H as [H3 H]. apply andb_prop in H. destruct H as [H4 _]. repeat (split; [assumption|]). assumption.
Qed.
(* dSFMT_jump: 2^128 words from any state, so 2^129 values from the end of a block *)
Theorem C16_dsfmt_jump_at_block_end :
  forall s x u, good s -> Forall unit_word (lb_st s) -> starts (lb_st s) (lb_u s) x u ->
  exists s', ds_jump (text_bits dsfmt_poly_128) s = Some s' /\ good (lb_reset dsK s') /\ (forall i, future (lb_reset dsK s') i = half64 x (382 + 2 ^ 129 + N.of_nat i)) /\
  (lb_loc s = 382%Z -> forall i, future s i = half64 x (382 + N.of_nat i)).
Proof. intros s x u G F S. exact (C16_dsfmt_jump_any_polynomial (text_bits dsfmt_poly_128) (2 ^ 128) s x u G F S (proj2 (proj2 (proj2 (proj2 dsfmt_polys_move))))). Qed.

(* ------------------------------------------------------------------- C48 *)
(* jump(iter) moves the array and the lung by exactly iter times 2^128 words *)
Theorem C48_dsfmt_jump_applies_each_once :
  forall iter s x u, good s -> Forall unit_word (lb_st s) -> starts (lb_st s) (lb_u s) x u -> (0 <= iter < 2 ^ 31)%Z ->
  exists s', ds_jump_lib iter s = Some (Ok s') /\ good s' /\ Forall unit_word (lb_st s') /\ lb_loc s' = 382%Z /\
  starts (lb_st s') (lb_u s') (fun n => x (Z.to_N iter * 2 ^ 128 + n)) (fun n => u (Z.to_N iter * 2 ^ 128 + n)) /\
  (forall i, future s' i = half64 x (382 + 2 * (Z.to_N iter * 2 ^ 128) + N.of_nat i)).
Proof. intros iter s x u. exact (C48_dsfmt_jump_any_polynomials dsfmt_polys (2 ^ 128) iter s x u dsfmt_polys_move). Qed.

(* ------------------------------------------------------------------- C55 *)
(* at the end of a block: 2^129 iter values, not the documented 2^128 (or 2^(128 iter)) *)
Theorem C55_dsfmt_jump_length :
  forall iter s x u, good s -> Forall unit_word (lb_st s) -> lb_loc s = 382%Z -> starts (lb_st s) (lb_u s) x u -> (0 <= iter < 2 ^ 31)%Z ->
  exists s', ds_jump_lib iter s = Some (Ok s') /\ forall i,
  future s i = half64 x (382 + N.of_nat i) /\ future s' i = half64 x (382 + 2 ^ 129 * Z.to_N iter + N.of_nat i).
Proof. intros iter s x u. exact (C55_dsfmt_jump_length_any_polynomials dsfmt_polys iter s x u dsfmt_polys_move). Qed.

(* ------------------------------------------------------------------- C17 *)
Theorem C17_dsfmt_jumps_add :
  forall i j s, good s -> Forall unit_word (lb_st s) -> (0 <= i)%Z -> (0 <= j)%Z -> (i + j < 2 ^ 31)%Z ->
  exists s1 s2 s3, ds_jump_lib i s = Some (Ok s1) /\ ds_jump_lib j s1 = Some (Ok s2) /\ ds_jump_lib (i + j) s = Some (Ok s3) /\
  lb_u s2 = lb_u s3 /\ forall n, future s2 n = future s3 n.
Proof. intros i j s. exact (C17_dsfmt_jumps_add_any_polynomials dsfmt_polys (2 ^ 128) i j s dsfmt_polys_move). Qed.
(* every seeded generator meets the hypotheses *)
Theorem C17_dsfmt_seeded_jumps_add :
  forall words i j, (0 <= i)%Z -> (0 <= j)%Z -> (i + j < 2 ^ 31)%Z ->
  exists s1 s2 s3, ds_jump_lib i (ds_new words) = Some (Ok s1) /\ ds_jump_lib j s1 = Some (Ok s2) /\ ds_jump_lib (i + j) (ds_new words) = Some (Ok s3) /\
  lb_u s2 = lb_u s3 /\ forall n, future s2 n = future s3 n.
Proof.
  intros words i j. apply C17_dsfmt_jumps_add; [apply C20_dsfmt_new|].
  exact (proj1 (proj2 (C34_dsfmt_seeded_units words (LB [] 0 0 (repeat 0 382) 0) (repeat_length _ _)))).
Qed.
Example C17_dsfmt_case : good (LB ex_st 1 382 (halves ex_st) 382) /\ Forall unit_word ex_st /\ starts ex_st 1 (lx dsK dsP ds_f ds_g ex_st 1) (lu dsK dsP ds_f ds_g ex_st 1).
Proof.
  split; [|split; [exact ex_st_unit|apply starts_lx; [exact ex_st_legal|reflexivity]]]. split; [exact ex_st_legal|]. split; [reflexivity|]. split; [exact halves_ex|discriminate].
Qed.
(* a stored polynomial has 5046 digits, and is not the power 1 *)
Example C16_dsfmt_text_case : N.of_nat (String.length dsfmt_poly_128) = 5046 /\ firstn 12 (text_bits dsfmt_poly_128) = [true; true; true; true; false; false; true; false; true; false; true; true].
Proof. split; vm_compute; reflexivity. Qed.

Print Assumptions C16_dsfmt_stored_polynomials.
Print Assumptions C16_dsfmt_strings_are_hexadecimal.
Print Assumptions C16_dsfmt_jump_at_block_end.
Print Assumptions C48_dsfmt_jump_applies_each_once.
Print Assumptions C55_dsfmt_jump_length.
Print Assumptions C17_dsfmt_jumps_add.
Print Assumptions C17_dsfmt_seeded_jumps_add.
