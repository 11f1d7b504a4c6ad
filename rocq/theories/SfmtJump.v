(* SFMT: every sequence of the recurrence is made of one sequence of bits that sf_chi
   annihilates, so the polynomials of sfmt-poly.h move every sequence of words *)
From Coq Require Import Uint63.
From Verif Require Import Word Gf2 Limb MtChar Poly63 PolyK LinCert Arr Half Lagged LaggedBuf JumpN SfmtSeed Sfmt Lanes SfmtFacts PropSfmt PolyText SfmtPoly SfmtCert SfmtChk.
From Coq Require Import ZifyBool ZifyNat ZifyN Btauto.
Open Scope N_scope.
Ltac Zify.zify_post_hook ::= idtac.

(* ------------------------------------------- bits of the lane shifts *)
Lemma mod32 k : k < 128 -> (k < 32 /\ k mod 32 = k) \/ (32 <= k < 64 /\ k mod 32 = k - 32) \/ (64 <= k < 96 /\ k mod 32 = k - 64) \/ (96 <= k < 128 /\ k mod 32 = k - 96).
Proof.
  intros H. pose proof (N.div_mod k 32 ltac:(discriminate)) as D. pose proof (N.mod_lt k 32 ltac:(discriminate)) as M. set (q := k / 32) in *. set (r := k mod 32) in *.
  assert (Q : q = 0 \/ q = 1 \/ q = 2 \/ q = 3) by lia. destruct Q as [Q|[Q|[Q|Q]]]; rewrite Q in D; lia.
Qed.
Lemma lanes_shr_spec y k : k < 128 -> N.testbit (lanes_shr 11 y) k = (k mod 32 <? 21) && N.testbit y (k + 11).
Proof.
  intros H. unfold lanes_shr. rewrite join4_spec by (apply wf_shr, lane_wf). rewrite !shr_spec, !lane_spec.
  destruct (mod32 k H) as [[B ->]|[[B ->]|[[B ->]|[B ->]]]].
  - replace (k <? 32) with true by lia. replace (k + 11 <? 32) with (k <? 21) by lia. f_equal. f_equal. lia.
  - replace (k <? 32) with false by lia. replace (k <? 64) with true by lia. replace (k - 32 + 11 <? 32) with (k - 32 <? 21) by lia. f_equal. f_equal. lia.
  - replace (k <? 32) with false by lia. replace (k <? 64) with false by lia. replace (k <? 96) with true by lia. replace (k - 64 + 11 <? 32) with (k - 64 <? 21) by lia. f_equal. f_equal. lia.
  - replace (k <? 32) with false by lia. replace (k <? 64) with false by lia. replace (k <? 96) with false by lia. replace (k - 96 + 11 <? 32) with (k - 96 <? 21) by lia. f_equal. f_equal. lia.
Qed.
Lemma lanes_shl_spec y k : k < 128 -> N.testbit (lanes_shl 18 y) k = (18 <=? k mod 32) && N.testbit y (k - 18).
Proof.
  intros H. unfold lanes_shl. rewrite join4_spec by apply wf_wshl. rewrite !wshl_spec, !lane_spec.
  destruct (mod32 k H) as [[B ->]|[[B ->]|[[B ->]|[B ->]]]].
  - replace (k <? 32) with true by lia. cbn [andb]. destruct (N.leb_spec 18 k); [|reflexivity]. replace (k - 18 <? 32) with true by lia. cbn [andb]. f_equal. lia.
  - replace (k <? 32) with false by lia. replace (k <? 64) with true by lia. replace (k - 32 <? 32) with true by lia. cbn [andb].
    destruct (N.leb_spec 18 (k - 32)); [|reflexivity]. replace (k - 32 - 18 <? 32) with true by lia. cbn [andb]. f_equal. lia.
  - replace (k <? 32) with false by lia. replace (k <? 64) with false by lia. replace (k <? 96) with true by lia. replace (k - 64 <? 32) with true by lia. cbn [andb].
    destruct (N.leb_spec 18 (k - 64)); [|reflexivity]. replace (k - 64 - 18 <? 32) with true by lia. cbn [andb]. f_equal. lia.
  - replace (k <? 32) with false by lia. replace (k <? 64) with false by lia. replace (k <? 96) with false by lia. replace (k - 96 <? 32) with true by lia. cbn [andb].
    destruct (N.leb_spec 18 (k - 96)); [|reflexivity]. replace (k - 96 - 18 <? 32) with true by lia. cbn [andb]. f_equal. lia.
Qed.
(* the recurrence bit by bit *)
Lemma published_bits x : (forall n, x n < 2 ^ 128) ->
  (forall n k, k < 128 -> N.testbit (x (n + 156)) k =
    xorb (xorb (xorb (xorb (N.testbit (x n) k) ((8 <=? k) && N.testbit (x n) (k - 8)))
      ((k mod 32 <? 21) && N.testbit (x (n + 122)) (k + 11) && N.testbit 0xbffffff6bffaffffddfecb7fdfffffef k))
      ((k <? 120) && N.testbit (x (n + 154)) (k + 8))) ((18 <=? k mod 32) && N.testbit (x (n + 155)) (k - 18))) -> published x.
Proof.
  intros W H n. apply (wf_eq 128).
  - apply W.
  - apply wf_lxor; [apply wf_lxor; [apply wf_lxor; [apply wf_lxor; [apply W|apply wf_wshl]|]|apply wf_shr, W]|unfold lanes_shl; apply join4_wf; apply wf_wshl].
    apply wf_land_l. unfold lanes_shr. apply join4_wf; apply wf_shr, lane_wf.
  - intros k Hk. rewrite H by exact Hk. rewrite !N.lxor_spec, N.land_spec, wshl_spec, lanes_shr_spec, lanes_shl_spec, shr_spec by exact Hk. replace (k <? 128) with true by lia. cbn [andb].
    f_equal. f_equal. destruct (N.ltb_spec k 120) as [L|L]; [reflexivity|]. symmetry. apply (wf_off 128); [apply W|lia].
Qed.

(* ------------------------------------------- words from a sequence of bits *)
Section Words.
Variable h : nat -> row. (* sf_hrow; a variable, to keep its contents away from the tactics *)
Definition xw (u : bseq) (n : N) : N := mkw 128 (fun j => ract (h j) u n).
Lemma xw_wf u n : xw u n < 2 ^ 128.
Proof. apply (wf_testbit 128). intros k Hk. unfold xw. rewrite mkw_spec. now replace (k <? N.of_nat 128) with false by lia. Qed.
Lemma xw_bit u n k : k < 128 -> N.testbit (xw u n) k = ract (h (N.to_nat k)) u n.
Proof. intros H. unfold xw. rewrite mkw_spec. now replace (k <? N.of_nat 128) with true by lia. Qed.
Lemma xw_published u : (forall j i, (j < 128)%nat -> fold_right xorb false (map (fun l => ract l u i) (gterms h j)) = false) -> published (xw u).
Proof.
  intros H. apply published_bits; [apply xw_wf|]. intros n k Hk. specialize (H (N.to_nat k) n ltac:(lia)).
  unfold gterms in H. cbn [map] in H. rewrite !map_app in H. cbn [fold_right] in H. rewrite !fold_right_app in H.
  assert (F : forall (b : bool) l c, fold_right xorb c (map (fun l => ract l u n) (if b then [l] else [])) = xorb (b && ract l u n) c) by (intros [|] l c; cbn [map fold_right andb]; [reflexivity|now rewrite xorb_false_l]).
  rewrite !F in H. rewrite !mulx_act in H by reflexivity. cbn [fold_right] in H.
  change (lN 30%uint63) with 30 in H. change (lN 59%uint63) with 59 in H. change (lN 28%uint63) with 28 in H. change (lN 29%uint63) with 29 in H.
  replace (n + 63 * N.of_nat 2 + 30) with (n + 156) in H by lia. replace (n + 63 * N.of_nat 1 + 59) with (n + 122) in H by lia.
  replace (n + 63 * N.of_nat 2 + 28) with (n + 154) in H by lia. replace (n + 63 * N.of_nat 2 + 29) with (n + 155) in H by lia.
  rewrite N2Nat.id in H.
  assert (M : (N.to_nat k mod 32)%nat = N.to_nat (k mod 32)) by (rewrite <- (N2Nat.id k) at 2; change 32 with (N.of_nat 32); rewrite <- Nat2N.inj_mod, Nat2N.id; reflexivity).
  rewrite M in H. rewrite !xw_bit by exact Hk.
  assert (G : forall m b j, j < 128 \/ b = false -> b && N.testbit (xw u m) j = b && ract (h (N.to_nat j)) u m) by (intros m b j [L| ->]; [now rewrite xw_bit|reflexivity]).
  rewrite !G; try (lia || (pose proof (mod32 k Hk); lia)).
  replace (8 <=? N.to_nat k)%nat with (8 <=? k) in H by lia. replace (N.to_nat (k mod 32) <? 21)%nat with (k mod 32 <? 21) in H by lia.
  replace (N.to_nat k <? 120)%nat with (k <? 120) in H by lia. replace (18 <=? N.to_nat (k mod 32))%nat with (18 <=? k mod 32) in H by lia.
  replace (N.to_nat k - 8)%nat with (N.to_nat (k - 8)) in H by lia. replace (N.to_nat k + 11)%nat with (N.to_nat (k + 11)) in H by lia.
  replace (N.to_nat k + 8)%nat with (N.to_nat (k + 8)) in H by lia. replace (N.to_nat k - 18)%nat with (N.to_nat (k - 18)) in H by lia.
  revert H.
  generalize (ract (h (N.to_nat k)) u n) (ract (h (N.to_nat k)) u (n + 156)) ((8 <=? k) && ract (h (N.to_nat (k - 8))) u n) (ract (h (N.to_nat (k + 11))) u (n + 122)) (N.testbit 0xbffffff6bffaffffddfecb7fdfffffef k)
    ((k <? 120) && ract (h (N.to_nat (k + 8))) u (n + 154)) ((18 <=? k mod 32) && ract (h (N.to_nat (k - 18))) u (n + 155)) (k mod 32 <? 21).
  intros [|] [|] [|] [|] [|] [|] [|] [|]; cbn; congruence.
Qed.
End Words.
Lemma lpol_bit cs x n k : N.testbit (lpol cs x n) k = bact cs (fun i => N.testbit (x i) k) n.
Proof.
  revert n. induction cs as [|c cs IH]; intros n; cbn [lpol bact]; [apply N.bits_0|]. rewrite N.lxor_spec, IH. destruct c; cbn [andb]; [reflexivity|now rewrite N.bits_0].
Qed.
Lemma bact_ext cs z w i : (forall k, z k = w k) -> bact cs z i = bact cs w i.
Proof. intros H. revert i. induction cs as [|c cs IH]; intros i; [reflexivity|]. cbn [bact]. now rewrite H, IH. Qed.

(* ------------------------------------------- every sequence is of this form *)
Section All.
Variables (h : nat -> row) (chi : row) (low : list bool).
Hypothesis monic : bsame (rbits chi) (low ++ [true]) = true.
Hypothesis deg : N.of_nat (List.length low) = 19968.
Hypothesis h0 : rzero (Limb.lx (h 0%nat) [1%uint63]) = true.
Hypothesis rels : forall u, ann chi u -> published (xw h u).
Definition first_bits (u : bseq) : list bool := grid 156 128 (fun n j => ract (h j) u (N.of_nat n)).
Definition word_bits (x : N -> N) : list bool := grid 156 128 (fun n j => N.testbit (x (N.of_nat n)) (N.of_nat j)).
Lemma low_bit u i : ract (h 0%nat) u i = u i.
Proof. rewrite (lx_zero _ _ h0). cbn [ract]. change (lN 1%uint63) with (N.shiftl 1 0). rewrite act_pow, N.add_0_r. apply xorb_false_r. Qed.
Definition words_of (x : N -> N) : list N := map (fun n => x (N.of_nat n)) (seq 0 156).
Lemma words_legal x : (forall n, x n < 2 ^ 128) -> published x -> legal (words_of x) /\ starts (words_of x) x.
Proof.
  intros W P. split; [split|split; [exact W|split; [exact P|]]].
  - unfold words_of. now rewrite map_length, seq_length.
  - apply Forall_forall. intros w I. apply in_map_iff in I. destruct I as (n & <- & _). apply W.
  - intros i Hi. unfold words_of. pose proof (nth_error_map_seq (fun n => x (N.of_nat n)) 156 (N.to_nat i) ltac:(lia)) as Q.
    rewrite nth_err_nth in Q by (rewrite map_length, seq_length; lia). apply some_inj in Q. now rewrite Q, N2Nat.id.
Qed.
Lemma published_unique x y : (forall n, x n < 2 ^ 128) -> published x -> (forall n, y n < 2 ^ 128) -> published y -> (forall n, n < 156 -> x n = y n) -> forall n, x n = y n.
Proof.
  intros Wx Px Wy Py E. destruct (words_legal x Wx Px) as [L S]. apply (starts_unique (words_of x)); [exact L|exact S|].
  destruct S as (_ & _ & S). split; [exact Wy|]. split; [exact Py|]. intros i Hi. rewrite <- S by exact Hi. symmetry. now apply E.
Qed.
Lemma bits_words u x : (forall n, x n < 2 ^ 128) -> first_bits u = word_bits x -> forall n, n < 156 -> xw h u n = x n.
Proof.
  intros W E n Hn. apply (wf_eq 128); [apply xw_wf|apply W|]. intros k Hk. pose proof (grid_inj _ _ _ _ E (N.to_nat n) (N.to_nat k) ltac:(lia) ltac:(lia)) as E2. cbv beta in E2. rewrite !N2Nat.id in E2.
  now rewrite xw_bit.
Qed.
Lemma all_words x : (forall n, x n < 2 ^ 128) -> published x -> exists u, ann chi u /\ forall n, x n = xw h u n.
Proof.
  intros W P.
  assert (Len : forall f, List.length (grid 156 128 f) = List.length low) by (intros f; apply Nat2N.inj; rewrite deg, grid_length, Nat2N.inj_mul; reflexivity).
  assert (pos : (0 < List.length low)%nat) by lia.
  destruct (ann_onto chi low (monic_of chi low monic) pos first_bits) with (c := word_bits x) as (u & A & E).
  - intros u _. apply Len.
  - intros u v Au Av E i. rewrite <- (low_bit u), <- (low_bit v).
    assert (X : forall n, xw h u n = xw h v n).
    { apply published_unique; [apply xw_wf|now apply rels|apply xw_wf|now apply rels|]. apply bits_words; [apply xw_wf|]. rewrite E. apply grid_ext. intros n j Hj.
      rewrite xw_bit by lia. now rewrite Nat2N.id. }
    pose proof (f_equal (fun w => N.testbit w 0) (X i)) as B. cbv beta in B. rewrite !xw_bit in B by lia. exact B.
  - apply Len.
  - exists u. split; [exact A|]. apply published_unique; [exact W|exact P|apply xw_wf|now apply rels|]. intros n Hn. symmetry. revert n Hn. now apply bits_words.
Qed.
(* a polynomial that is a power of the shift on annihilated sequences *)
Lemma power_moves cs l J : bsame (rbits l) cs = true -> (forall u, ann chi u -> forall i, ract l u i = u (i + J)) -> moves cs J.
Proof.
  intros B H x W P n. destruct (all_words x W P) as (u & A & X). apply N.bits_inj. intros k. rewrite lpol_bit.
  destruct (N.ltb_spec k 128) as [Hk|Hk].
  - rewrite (bact_ext cs _ (ract (h (N.to_nat k)) u)) by (intros i; now rewrite X, xw_bit). rewrite (bact_row l cs _ _ B), ract_ract.
    rewrite (ract_ext _ _ (sh J u)) by (intros i; apply H; exact A). rewrite ract_sh, X, xw_bit by exact Hk. f_equal. lia.
  - rewrite (bact_ext cs _ (fun _ => false)); [|intros i; apply (wf_off 128); [apply W|exact Hk]]. rewrite (wf_off 128 (x (J + n)) k) by (apply W || exact Hk).
    clear. revert n. induction cs as [|c cs IH]; intros n; [reflexivity|]. cbn [bact]. rewrite IH. now destruct c.
Qed.
End All.

(* ------------------------------------------- SFMT19937 *)
Lemma rels_published chi h q u : ann chi u -> rels_ok (table chi) h q = true -> published (xw h u).
Proof.
  intros A R. apply xw_published. intros j i Hj. apply (rel_sound chi _ (nth j q []) u i A). unfold rels_ok in R. rewrite forallb_forall in R. apply R. apply in_seq. lia.
Qed.
Lemma sf_rels_published u : ann sf_chi u -> published (xw sf_hrow u).
Proof.
  intros A. exact (rels_published sf_chi sf_hrow sf_rel u A sf_rels_ok).
Qed.
Lemma sf_reach u : ann sf_chi u ->
  (forall i, ract (sf_p 0) u i = u (i + 2 ^ 128)) /\ (forall i, ract (sf_p 1) u i = u (i + 16 * 2 ^ 128)) /\ (forall i, ract (sf_p 2) u i = u (i + 256 * 2 ^ 128)) /\
  (forall i, ract (sf_p 3) u i = u (i + 4096 * 2 ^ 128)) /\ (forall i, ract (sf_p 4) u i = u (i + 65536 * 2 ^ 128)).
Proof.
  intros A. assert (S0 : forall i, ract sf_start u i = u (i + 2 ^ 14)).
  { intros i. unfold sf_start. rewrite start_act. f_equal. change (2 ^ 14) with (63 * N.of_nat 260 + 4). lia. }
  pose proof (stages_reach 5 4 sf_chi sf_groups sf_start (2 ^ 14) u A S0 sf_stages_ok) as R. unfold sf_groups in R.
  apply (reach_five u (2 ^ 14) _ _ _ _ _ _ _ _ _ _ _ _ _ _ _ R); [rewrite sf_q0_length|rewrite sf_q1_length|rewrite sf_q2_length|rewrite sf_q3_length|rewrite sf_q4_length]; reflexivity.
Qed.
Theorem sfmt_polys_move : polys_move sfmt_polys (2 ^ 128).
Proof.
  pose proof (power_moves sf_hrow sf_chi sf_low sf_low_ok sf_low_length sf_h0 sf_rels_published) as M.
  unfold polys_move, sfmt_polys. cbn [p144 p140 p136 p132 p128].
  split; [|split; [|split; [|split]]].
  - apply (M _ _ _ sf_text4_ok). intros u A. apply (sf_reach u A).
  - apply (M _ _ _ sf_text3_ok). intros u A. apply (sf_reach u A).
  - apply (M _ _ _ sf_text2_ok). intros u A. apply (sf_reach u A).
  - apply (M _ _ _ sf_text1_ok). intros u A. apply (sf_reach u A).
  - apply (M _ _ _ sf_text0_ok). intros u A. apply (sf_reach u A).
Qed.
