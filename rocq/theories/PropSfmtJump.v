(* SFMT: jump() and jumped() with the polynomials of sfmt-poly.h *)
From Verif Require Import Word Arr Buffer32 Py Half Lagged LaggedBuf JumpN SfmtSeed Sfmt Lanes SfmtFacts PropSfmt PolyText SfmtPoly SfmtChk SfmtJump.
From Coq Require Import ZifyBool ZifyNat ZifyN.
Open Scope N_scope.
Ltac Zify.zify_post_hook ::= idtac.

(* jump(iter) of the library *)
Definition sf_jump_lib : Z -> sfpy -> option (outcome sfpy) := sf_jump_py sfmt_polys.

(* ------------------------------------------------------------------- C16 *)
(* the five stored polynomials move every sequence of the recurrence by 2^128, 2^132,
   2^136, 2^140 and 2^144 words of 128 bits, as the comment in sfmt.c:444 says *)
Theorem C16_sfmt_stored_polynomials :
  forall x, (forall n, x n < 2 ^ 128) -> published x -> forall n,
  lpol (text_bits sfmt_poly_128) x n = x (2 ^ 128 + n) /\ lpol (text_bits sfmt_poly_132) x n = x (2 ^ 132 + n) /\ lpol (text_bits sfmt_poly_136) x n = x (2 ^ 136 + n) /\
  lpol (text_bits sfmt_poly_140) x n = x (2 ^ 140 + n) /\ lpol (text_bits sfmt_poly_144) x n = x (2 ^ 144 + n).
Proof.
  intros x W P n. destruct sfmt_polys_move as (M4 & M3 & M2 & M1 & M0).
  split; [exact (M0 x W P n)|]. split; [exact (M1 x W P n)|]. split; [exact (M2 x W P n)|]. split; [exact (M3 x W P n)|exact (M4 x W P n)].
Qed.
(* the loop reads hexadecimal digits only: its assertion holds *)
Theorem C16_sfmt_strings_are_hexadecimal :
  text_hex sfmt_poly_128 = true /\ text_hex sfmt_poly_132 = true /\ text_hex sfmt_poly_136 = true /\ text_hex sfmt_poly_140 = true /\ text_hex sfmt_poly_144 = true.
Proof.
  pose proof sf_text_hex as H. cbn [forallb] in H. apply andb_prop in H. destruct H as [H0 H]. apply andb_prop in H. destruct H as [H1 H]. apply andb_prop in H. destruct H as [H2 H].
  apply andb_prop in H. destruct H as [H3 H]. apply andb_prop in H. destruct H as [H4 _]. repeat (split; [assumption|]). assumption.
Qed.
(* SFMT_jump: 2^128 words from any state, so 2^129 values from the end of a block *)
Theorem C16_sfmt_jump_at_block_end :
  forall dbg s x, good dbg s -> starts (lb_st s) x ->
  exists s', sf_jump (text_bits sfmt_poly_128) s = Some s' /\ good dbg (lb_reset sfK s') /\ (forall i, future (lb_reset sfK s') i = half64 x (312 + 2 ^ 129 + N.of_nat i)) /\
  (lb_loc s = 312%Z -> forall i, future s i = half64 x (312 + N.of_nat i)).
Proof. intros dbg s x G S. exact (C16_sfmt_jump_any_polynomial dbg (text_bits sfmt_poly_128) (2 ^ 128) s x G S (proj2 (proj2 (proj2 (proj2 sfmt_polys_move))))). Qed.

(* ------------------------------------------------------------------- C48 *)
(* jump(iter) moves the array by exactly iter times 2^128 words *)
Theorem C48_sfmt_jump_applies_each_once :
  forall dbg iter b x, good dbg (core b) -> starts (lb_st (core b)) x -> (0 <= iter < 2 ^ 31)%Z ->
  exists b', sf_jump_lib iter b = Some (Ok b') /\ good dbg (core b') /\ lb_st (core b') = map (fun i => x (Z.to_N iter * 2 ^ 128 + N.of_nat i)) (seq 0 156) /\
  has32 b' = false /\ (forall i, future (core b') i = half64 x (312 + 2 * (Z.to_N iter * 2 ^ 128) + N.of_nat i)).
Proof. intros dbg iter b x. exact (C48_sfmt_jump_any_polynomials dbg sfmt_polys (2 ^ 128) iter b x sfmt_polys_move). Qed.

(* ------------------------------------------------------------------- C55 *)
(* at the end of a block: 2^129 iter values, not the documented 2^128 (or 2^(128 iter)) *)
Theorem C55_sfmt_jump_length :
  forall dbg iter b x, good dbg (core b) -> lb_loc (core b) = 312%Z -> starts (lb_st (core b)) x -> (0 <= iter < 2 ^ 31)%Z ->
  exists b', sf_jump_lib iter b = Some (Ok b') /\ forall i,
  future (core b) i = half64 x (312 + N.of_nat i) /\ future (core b') i = half64 x (312 + 2 ^ 129 * Z.to_N iter + N.of_nat i).
Proof. intros dbg iter b x. exact (C55_sfmt_jump_length_any_polynomials dbg sfmt_polys iter b x sfmt_polys_move). Qed.

(* ------------------------------------------------------------------- C17 *)
Theorem C17_sfmt_jumps_add :
  forall dbg i j b, good dbg (core b) -> (0 <= i)%Z -> (0 <= j)%Z -> (i + j < 2 ^ 31)%Z ->
  exists b1 b2 b3, sf_jump_lib i b = Some (Ok b1) /\ sf_jump_lib j b1 = Some (Ok b2) /\ sf_jump_lib (i + j) b = Some (Ok b3) /\
  lb_st (core b2) = lb_st (core b3) /\ forall n, future (core b2) n = future (core b3) n.
Proof. intros dbg i j b. exact (C17_sfmt_jumps_add_any_polynomials dbg sfmt_polys (2 ^ 128) i j b sfmt_polys_move). Qed.
(* jumps commute *)
Theorem C17_sfmt_jumps_commute :
  forall dbg i j b, good dbg (core b) -> (0 <= i)%Z -> (0 <= j)%Z -> (i + j < 2 ^ 31)%Z ->
  exists a1 a2 b1 b2, sf_jump_lib i b = Some (Ok a1) /\ sf_jump_lib j a1 = Some (Ok a2) /\ sf_jump_lib j b = Some (Ok b1) /\ sf_jump_lib i b1 = Some (Ok b2) /\
  lb_st (core a2) = lb_st (core b2).
Proof.
  intros dbg i j b G Hi Hj H. destruct (C17_sfmt_jumps_add dbg i j b G Hi Hj H) as (a1 & a2 & a3 & A1 & A2 & A3 & EA & _).
  destruct (C17_sfmt_jumps_add dbg j i b G Hj Hi ltac:(now rewrite Z.add_comm)) as (b1 & b2 & b3 & B1 & B2 & B3 & EB & _).
  exists a1, a2, b1, b2. repeat (split; [assumption|]). rewrite EA, EB. rewrite Z.add_comm in B3. rewrite A3 in B3. now injection B3 as ->.
Qed.
Example C17_sfmt_case : good true (LB ex_st 0 624 (halves ex_st) 312) /\ starts ex_st (lx sfK sfP sf_f sf_g ex_st 0).
Proof.
  split; [|apply starts_lx, ex_st_legal]. split; [exact ex_st_legal|]. split; [reflexivity|]. split; [reflexivity|]. split; [apply halves_wf|]. split; [discriminate|reflexivity].
Qed.
(* a stored polynomial has 4992 digits, and is not the power 1 *)
Example C16_sfmt_text_case : N.of_nat (String.length sfmt_poly_128) = 4992 /\ firstn 12 (text_bits sfmt_poly_128) = [false; false; true; true; true; false; true; false; false; true; true; true].
Proof. split; vm_compute; reflexivity. Qed.

Print Assumptions C16_sfmt_stored_polynomials.
Print Assumptions C16_sfmt_strings_are_hexadecimal.
Print Assumptions C16_sfmt_jump_at_block_end.
Print Assumptions C48_sfmt_jump_applies_each_once.
Print Assumptions C55_sfmt_jump_length.
Print Assumptions C17_sfmt_jumps_add.
Print Assumptions C17_sfmt_jumps_commute.
