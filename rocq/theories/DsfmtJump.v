(* DSFMT: every sequence of the recurrence whose words are doubles in [1, 2) is made of one
   sequence of bits that ds_chi annihilates, so the polynomials of dSFMT-poly.h move every
   such sequence *)
From Coq Require Import Uint63.
From Verif Require Import Word Gf2 Limb MtChar Poly63 PolyK LinCert Arr Half Lagged LaggedBuf JumpN SfmtSeed Sfmt Lanes SfmtFacts SfmtJump Dsfmt DsfmtFacts PropDsfmt PolyText DsfmtPoly DsfmtCert DsfmtChk.
From Coq Require Import ZifyBool ZifyNat ZifyN.
Open Scope N_scope.
Ltac Zify.zify_post_hook ::= idtac.

(* ------------------------------------------- bits of the halves *)
Lemma mod64 k : k < 128 -> (k < 64 /\ k mod 64 = k) \/ (64 <= k /\ k mod 64 = k - 64).
Proof.
  intros H. pose proof (N.div_mod k 64 ltac:(discriminate)) as D. pose proof (N.mod_lt k 64 ltac:(discriminate)) as M. set (q := k / 64) in *. set (r := k mod 64) in *.
  assert (Q : q = 0 \/ q = 1) by lia. destruct Q as [Q|Q]; rewrite Q in D; lia.
Qed.
Lemma dlo_bit x i : N.testbit (dlo x) i = (i <? 64) && N.testbit x i. Proof. apply trunc_spec. Qed.
Lemma dhi_bit x i : N.testbit (dhi x) i = (i <? 64) && N.testbit x (i + 64). Proof. unfold dhi. now rewrite trunc_spec, shr_spec. Qed.
Lemma halves_shl_spec x k : k < 128 -> N.testbit (lanes64 (fun w => w * 2 ^ 19 mod 2 ^ 64) x) k = (19 <=? k mod 64) && N.testbit x (k - 19).
Proof.
  intros H. rewrite lanes64_dw by (intros; apply N.mod_lt; discriminate). change (dlo x * 2 ^ 19 mod 2 ^ 64) with (trunc 64 (dlo x * 2 ^ 19)). change (dhi x * 2 ^ 19 mod 2 ^ 64) with (trunc 64 (dhi x * 2 ^ 19)).
  rewrite dw_spec by apply wf_trunc. rewrite <- !N.shiftl_mul_pow2, !trunc_spec, !shl_spec, dlo_bit, dhi_bit.
  destruct (mod64 k H) as [[B ->]|[B ->]].
  - replace (k <? 64) with true by lia. replace (k - 19 <? 64) with true by lia. reflexivity.
  - replace (k <? 64) with false by lia. replace (k - 64 <? 64) with true by lia. cbn [andb]. destruct (N.leb_spec 19 (k - 64)); [|reflexivity].
    replace (k - 64 - 19 <? 64) with true by lia. cbn [andb]. f_equal. lia.
Qed.
Lemma div_wf64 w : wf 64 w -> wf 64 (w / 2 ^ 12).
Proof. intros H. rewrite <- N.shiftr_div_pow2. now apply wf_shr. Qed.
Lemma halves_shr_spec x k : k < 128 -> N.testbit (lanes64 (fun w => w / 2 ^ 12) x) k = (k mod 64 <? 52) && N.testbit x (k + 12).
Proof.
  intros H. rewrite lanes64_dw by exact div_wf64. rewrite dw_spec by apply div_wf64, dlo_wf. rewrite <- !N.shiftr_div_pow2, !shr_spec, dlo_bit, dhi_bit.
  destruct (mod64 k H) as [[B ->]|[B ->]].
  - replace (k <? 64) with true by lia. replace (k + 12 <? 64) with (k <? 52) by lia. reflexivity.
  - replace (k <? 64) with false by lia. replace (k - 64 + 12 <? 64) with (k - 64 <? 52) by lia. f_equal. f_equal. lia.
Qed.
Lemma div32 k : k < 128 -> (k < 32 /\ k / 32 = 0) \/ (32 <= k < 64 /\ k / 32 = 1) \/ (64 <= k < 96 /\ k / 32 = 2) \/ (96 <= k < 128 /\ k / 32 = 3).
Proof.
  intros H. pose proof (N.div_mod k 32 ltac:(discriminate)) as D. pose proof (N.mod_lt k 32 ltac:(discriminate)) as M. set (q := k / 32) in *. set (r := k mod 32) in *.
  assert (Q : q = 0 \/ q = 1 \/ q = 2 \/ q = 3) by lia. destruct Q as [Q|[Q|[Q|Q]]]; rewrite Q in D; lia.
Qed.
Lemma reversed_spec x k : k < 128 -> N.testbit (reversed x) k = N.testbit x (32 * (3 - k / 32) + k mod 32).
Proof.
  intros H. unfold reversed. rewrite join4_spec by apply lane_wf. rewrite !lane_spec. pose proof (mod32 k H) as M.
  destruct (div32 k H) as [[B ->]|[[B ->]|[[B ->]|[B ->]]]].
  - replace (k <? 32) with true by lia. cbn [andb]. f_equal. lia.
  - replace (k <? 32) with false by lia. replace (k <? 64) with true by lia. replace (k - 32 <? 32) with true by lia. cbn [andb]. f_equal. lia.
  - replace (k <? 32) with false by lia. replace (k <? 64) with false by lia. replace (k <? 96) with true by lia. replace (k - 64 <? 32) with true by lia. cbn [andb]. f_equal. lia.
  - replace (k <? 32) with false by lia. replace (k <? 64) with false by lia. replace (k <? 96) with false by lia. replace (k - 96 <? 32) with true by lia. cbn [andb]. f_equal. lia.
Qed.
Lemma lanes64_wf f x : (forall w, wf 64 w -> wf 64 (f w)) -> wf 128 (lanes64 f x).
Proof. intros F. rewrite lanes64_dw by exact F. apply dw_wf; apply F; [apply dlo_wf|apply dhi_wf]. Qed.
Lemma published_bits2 x u : (forall n, x n < 2 ^ 128 /\ u n < 2 ^ 128) ->
  (forall n k, k < 128 -> N.testbit (u (n + 1)) k =
    xorb (xorb ((19 <=? k mod 64) && N.testbit (x n) (k - 19)) (N.testbit (u n) (32 * (3 - k / 32) + k mod 32))) (N.testbit (x (n + 117)) k)) ->
  (forall n k, k < 128 -> N.testbit (x (n + 191)) k =
    xorb (xorb ((k mod 64 <? 52) && N.testbit (u (n + 1)) (k + 12)) (N.testbit (u (n + 1)) k && N.testbit 0xffdfffc90fffd000ffafffffffb3f k)) (N.testbit (x n) k)) -> published x u.
Proof.
  intros W Hu Hx n. split; apply (wf_eq 128); try apply W.
  - apply wf_lxor; [apply wf_lxor|apply W]; [apply lanes64_wf; intros; apply N.mod_lt; discriminate|apply join4_wf; apply lane_wf].
  - intros k Hk. rewrite Hu by exact Hk. now rewrite !N.lxor_spec, halves_shl_spec, reversed_spec by exact Hk.
  - apply wf_lxor; [apply wf_lxor|apply W]; [apply lanes64_wf, div_wf64|apply wf_land_l, W].
  - intros k Hk. rewrite Hx by exact Hk. now rewrite !N.lxor_spec, N.land_spec, halves_shr_spec by exact Hk.
Qed.
(* the bits of a double in [1, 2) above the fraction *)
Lemma unit_bit x k : unit_word x -> k < 128 -> 52 <= k mod 64 -> N.testbit x k = (k mod 64 <? 62).
Proof.
  intros (_ & L & H) Hk M.
  assert (C : forall y i, N.shiftr y 52 = 0x3FF -> 52 <= i -> N.testbit y i = (i <? 62)).
  { intros y i E Hi. pose proof (f_equal (fun z => N.testbit z (i - 52)) E) as Q. cbv beta in Q. rewrite shr_spec in Q. replace (i - 52 + 52) with i in Q by lia. rewrite Q.
    change 0x3FF with (N.ones 10). destruct (N.ltb_spec i 62); [apply N.ones_spec_low|apply N.ones_spec_high]; lia. }
  destruct (mod64 k Hk) as [[B E]|[B E]]; rewrite E in *.
  - pose proof (C _ k L M) as Q. rewrite dlo_bit in Q. now replace (k <? 64) with true in Q by lia.
  - pose proof (C _ (k - 64) H M) as Q. rewrite dhi_bit in Q. replace (k - 64 <? 64) with true in Q by lia. cbn [andb] in Q. now replace (k - 64 + 64) with k in Q by lia.
Qed.

(* ------------------------------------------- words from a sequence of bits *)
Lemma mod_nat k m : (N.to_nat k mod N.to_nat m)%nat = N.to_nat (k mod m). Proof. apply Nat2N.inj. now rewrite Nat2N.inj_mod, !N2Nat.id. Qed.
Lemma div_nat k m : (N.to_nat k / N.to_nat m)%nat = N.to_nat (k / m). Proof. apply Nat2N.inj. now rewrite Nat2N.inj_div, !N2Nat.id. Qed.
Lemma xw_published2 h hu z :
  (forall j i, (j < 128)%nat -> fold_right xorb false (map (fun l => ract l z i) (uterms h hu j)) = false) ->
  (forall j i, (j < 128)%nat -> fold_right xorb false (map (fun l => ract l z i) (xterms h hu j)) = false) -> published (xw h z) (xw hu z).
Proof.
  intros HU HX. apply published_bits2; [intros n; split; apply xw_wf| |]; intros n k Hk.
  - specialize (HU (N.to_nat k) n ltac:(lia)). unfold uterms in HU. cbn [map fold_right] in HU.
    assert (F : forall (b : bool) l, fold_right xorb false (map (fun l => ract l z n) (if b then [l] else [])) = b && ract l z n) by (intros [|] l; cbn [map fold_right andb]; [apply xorb_false_r|reflexivity]).
    rewrite F in HU. rewrite !mulx_act in HU by reflexivity. change (lN 1%uint63) with 1 in HU. change (lN 54%uint63) with 54 in HU.
    replace (n + 63 * N.of_nat 0 + 1) with (n + 1) in HU by lia. replace (n + 63 * N.of_nat 1 + 54) with (n + 117) in HU by lia.
    change 64%nat with (N.to_nat 64) in HU. change 32%nat with (N.to_nat 32) in HU. rewrite !mod_nat, div_nat in HU. 
    pose proof (mod32 k Hk) as M32. pose proof (div32 k Hk) as D32. pose proof (mod64 k Hk) as M64.
    replace (N.to_nat 32 * (3 - N.to_nat (k / 32)) + N.to_nat (k mod 32))%nat with (N.to_nat (32 * (3 - k / 32) + k mod 32)) in HU by lia.
    replace (19 <=? N.to_nat (k mod 64))%nat with (19 <=? k mod 64) in HU by lia. replace (N.to_nat k - 19)%nat with (N.to_nat (k - 19)) in HU by lia.
    rewrite !xw_bit by lia. revert HU.
    generalize (ract (hu (N.to_nat k)) z (n + 1)) (ract (h (N.to_nat k)) z (n + 117)) (ract (hu (N.to_nat (32 * (3 - k / 32) + k mod 32))) z n) ((19 <=? k mod 64) && ract (h (N.to_nat (k - 19))) z n).
    intros [|] [|] [|] [|]; cbn; congruence.
  - specialize (HX (N.to_nat k) n ltac:(lia)). unfold xterms in HX. cbn [map fold_right] in HX. rewrite map_app, fold_right_app in HX.
    assert (F : forall (b : bool) l c, fold_right xorb c (map (fun l => ract l z n) (if b then [l] else [])) = xorb (b && ract l z n) c) by (intros [|] l c; cbn [map fold_right andb]; [reflexivity|now rewrite xorb_false_l]).
    rewrite !F in HX. rewrite !mulx_act in HX by reflexivity. change (lN 1%uint63) with 1 in HX. change (lN 2%uint63) with 2 in HX.
    replace (n + 63 * N.of_nat 0 + 1) with (n + 1) in HX by lia. replace (n + 63 * N.of_nat 3 + 2) with (n + 191) in HX by lia. rewrite N2Nat.id in HX.
    change 64%nat with (N.to_nat 64) in HX. rewrite !mod_nat in HX. pose proof (mod64 k Hk) as M64.
    replace (N.to_nat (k mod 64) <? 52)%nat with (k mod 64 <? 52) in HX by lia. replace (N.to_nat k + 12)%nat with (N.to_nat (k + 12)) in HX by lia.
    rewrite !(xw_bit _ z _ k) by lia.
    assert (G : (k mod 64 <? 52) && N.testbit (xw hu z (n + 1)) (k + 12) = (k mod 64 <? 52) && ract (hu (N.to_nat (k + 12))) z (n + 1)).
    { destruct (N.ltb_spec (k mod 64) 52); [|reflexivity]. cbn [andb]. apply xw_bit. lia. }
    rewrite G. revert HX.
    generalize (ract (h (N.to_nat k)) z (n + 191)) (ract (h (N.to_nat k)) z n) ((k mod 64 <? 52) && ract (hu (N.to_nat (k + 12))) z (n + 1)) (N.testbit 0xffdfffc90fffd000ffafffffffb3f k) (ract (hu (N.to_nat k)) z (n + 1)).
    intros [|] [|] [|] [|] [|]; cbn; congruence.
Qed.

(* ------------------------------------------- every sequence is of this form *)
Section All2.
Variables (hx hu : nat -> row) (hc chi : row) (low : list bool).
Let h := xrow hx hc.
Hypothesis monic : bsame (rbits chi) (low ++ [true]) = true.
Hypothesis deg : N.of_nat (List.length low) = 19993.
Hypothesis h115 : rzero (Limb.lx (h 115%nat) [1%uint63]) = true.
Hypothesis rels : forall z, ann chi z -> published (xw h z) (xw hu z) /\ forall n, ract hc z (n + 1) = ract hc z n.
(* the free bits of a word *)
Definition place (j : nat) : nat := (64 * (j / 52) + j mod 52)%nat.
Lemma place_lt j : (j < 104)%nat -> (place j < 128)%nat.
Proof. intros H. unfold place. pose proof (Nat.mod_upper_bound j 52 ltac:(discriminate)) as M. assert (j / 52 < 2)%nat by (apply Nat.div_lt_upper_bound; lia). set (q := (j / 52)%nat) in *. lia. Qed.
Lemma place_onto k : k < 128 -> k mod 64 < 52 -> exists j, (j < 104)%nat /\ place j = N.to_nat k.
Proof.
  intros H M. destruct (mod64 k H) as [[B E]|[B E]]; rewrite E in M; [exists (N.to_nat k)|exists (52 + N.to_nat (k - 64))%nat]; (split; [lia|]); unfold place.
  - rewrite Nat.div_small, Nat.mod_small by lia. lia.
  - replace (52 + N.to_nat (k - 64))%nat with (N.to_nat (k - 64) + 1 * 52)%nat by lia. rewrite Nat.div_add, Nat.mod_add, Nat.div_small, Nat.mod_small by lia. lia.
Qed.
(* a bit, 191 by 104 bits, 128 bits *)
Definition frame (c : bool) (f g : nat -> nat -> bool) : list bool := c :: grid 191 104 f ++ grid 1 128 g.
Lemma cons_inj (a b : bool) l m : a :: l = b :: m -> a = b /\ l = m. Proof. intros E. injection E as -> ->. now split. Qed.
Lemma frame_inj c f g c' f' g' : frame c f g = frame c' f' g' -> c = c' /\ grid 191 104 f = grid 191 104 f' /\ grid 1 128 g = grid 1 128 g'.
Proof. unfold frame. intros E. destruct (cons_inj _ _ _ _ E) as [Ec E2]. split; [exact Ec|]. apply app_inj; [now rewrite !grid_length|exact E2]. Qed.
Lemma frame_ext c f g f' g' : (forall n j, (j < 104)%nat -> f n j = f' n j) -> (forall n j, (j < 128)%nat -> g n j = g' n j) -> frame c f g = frame c f' g'.
Proof. intros F G. unfold frame. now rewrite (grid_ext 191 104 f f' F), (grid_ext 1 128 g g' G). Qed.
Definition first2 (z : bseq) : list bool :=
  frame (ract hc z 0) (fun n j => ract (h (place j)) z (N.of_nat n)) (fun n j => ract (hu j) z (N.of_nat n)).
Definition bits2 (c : bool) (x u : N -> N) : list bool :=
  frame c (fun n j => N.testbit (x (N.of_nat n)) (N.of_nat (place j))) (fun n j => N.testbit (u (N.of_nat n)) (N.of_nat j)).
Lemma constant z : ann chi z -> forall n, ract hc z n = ract hc z 0.
Proof. intros A n. induction n as [|n IH] using N.peano_ind; [reflexivity|]. rewrite <- N.add_1_r, (proj2 (rels z A) n). exact IH. Qed.
(* the other bits *)
Lemma high_bit z n k : ann chi z -> k < 128 -> 52 <= k mod 64 -> N.testbit (xw h z n) k = (k mod 64 <? 62) && ract hc z 0.
Proof.
  intros A Hk M. rewrite xw_bit by exact Hk. unfold h, xrow. change 64%nat with (N.to_nat 64). rewrite mod_nat.
  replace (N.to_nat (k mod 64) <? 52)%nat with false by lia. replace (N.to_nat (k mod 64) <? 62)%nat with (k mod 64 <? 62) by lia.
  destruct (k mod 64 <? 62); [|reflexivity]. cbn [andb]. now apply constant.
Qed.
Lemma words_legal2 x u : (forall n, x n < 2 ^ 128 /\ u n < 2 ^ 128) -> published x u ->
  legal (map (fun n => x (N.of_nat n)) (seq 0 191)) /\ starts (map (fun n => x (N.of_nat n)) (seq 0 191)) (u 0) x u.
Proof.
  intros W P. split; [split|split; [exact W|split; [exact P|split; [reflexivity|]]]].
  - now rewrite map_length, seq_length.
  - apply Forall_forall. intros w I. apply in_map_iff in I. destruct I as (n & <- & _). apply W.
  - intros i Hi. pose proof (nth_error_map_seq (fun n => x (N.of_nat n)) 191 (N.to_nat i) ltac:(lia)) as Q.
    rewrite nth_err_nth in Q by (rewrite map_length, seq_length; lia). apply some_inj in Q. now rewrite Q, N2Nat.id.
Qed.
Lemma published_unique2 x u y v : (forall n, x n < 2 ^ 128 /\ u n < 2 ^ 128) -> published x u -> (forall n, y n < 2 ^ 128 /\ v n < 2 ^ 128) -> published y v ->
  (forall n, n < 191 -> x n = y n) -> u 0 = v 0 -> forall n, x n = y n /\ u n = v n.
Proof.
  intros Wx Px Wy Py E U. destruct (words_legal2 x u Wx Px) as [L S]. apply (starts_unique _ _ _ _ _ _ L S).
  destruct S as (_ & _ & _ & S). split; [exact Wy|]. split; [exact Py|]. split; [now symmetry|]. intros i Hi. rewrite <- S by exact Hi. symmetry. now apply E.
Qed.
Lemma xws_wf z n : xw h z n < 2 ^ 128 /\ xw hu z n < 2 ^ 128. Proof. split; apply xw_wf. Qed.
Lemma bits_words2 z c x u : ann chi z -> (forall n, x n < 2 ^ 128 /\ u n < 2 ^ 128) ->
  (forall n k, k < 128 -> 52 <= k mod 64 -> N.testbit (x n) k = (k mod 64 <? 62) && c) -> first2 z = bits2 c x u -> (forall n, n < 191 -> xw h z n = x n) /\ xw hu z 0 = u 0.
Proof.
  intros A W C E. unfold first2, bits2 in E. apply frame_inj in E. destruct E as (Ec & Ex & Eu). split.
  - intros n Hn. apply (wf_eq 128); [apply xw_wf|apply W|]. intros k Hk. destruct (N.leb_spec 52 (k mod 64)) as [M|M].
    + rewrite high_bit, C, Ec by assumption. reflexivity.
    + destruct (place_onto k Hk M) as (j & Hj & Ej). pose proof (grid_inj _ _ _ _ Ex (N.to_nat n) j ltac:(lia) Hj) as Q. cbv beta in Q. rewrite Ej, !N2Nat.id in Q. now rewrite xw_bit.
  - apply (wf_eq 128); [apply xw_wf|apply W|]. intros k Hk. pose proof (grid_inj _ _ _ _ Eu 0%nat (N.to_nat k) ltac:(lia) ltac:(lia)) as Q. cbv beta in Q. rewrite N2Nat.id in Q. now rewrite xw_bit.
Qed.
Lemma bit115 z i : ract (h 115%nat) z i = z i.
Proof. rewrite (lx_zero _ _ h115). cbn [ract]. change (lN 1%uint63) with (N.shiftl 1 0). rewrite act_pow, N.add_0_r. apply xorb_false_r. Qed.
Lemma all_words2 x u : (forall n, unit_word (x n) /\ u n < 2 ^ 128) -> published x u -> exists z, ann chi z /\ forall n, x n = xw h z n /\ u n = xw hu z n.
Proof.
  intros W P.
  assert (Len : forall (c : bool) f g, List.length (frame c f g) = List.length low).
  { intros c f g. apply Nat2N.inj. rewrite deg. unfold frame. cbn [List.length]. rewrite app_length, !grid_length, Nat2N.inj_succ, Nat2N.inj_add, !Nat2N.inj_mul. reflexivity. }
  assert (pos : (0 < List.length low)%nat) by lia.
  destruct (ann_onto chi low (monic_of chi low monic) pos first2) with (c := bits2 true x u) as (z & A & E).
  - intros z _. apply Len.
  - intros z w Az Aw E i. rewrite <- (bit115 z), <- (bit115 w).
    assert (X : forall n, xw h z n = xw h w n /\ xw hu z n = xw hu w n).
    { destruct (bits_words2 z (ract hc w 0) (xw h w) (xw hu w) Az (xws_wf w)) as [E1 E2].
      - intros n k Hk M. now apply high_bit.
      - rewrite E. unfold first2, bits2. apply frame_ext; intros n j Hj; rewrite xw_bit, Nat2N.id; try reflexivity; [|lia]. pose proof (place_lt j Hj). lia.
      - apply published_unique2; [apply xws_wf|now apply rels|apply xws_wf|now apply rels|exact E1|exact E2]. }
    pose proof (f_equal (fun v => N.testbit v 115) (proj1 (X i))) as B. cbv beta in B. rewrite !xw_bit in B by lia. exact B.
  - apply Len.
  - exists z. split; [exact A|]. assert (W' : forall n, x n < 2 ^ 128 /\ u n < 2 ^ 128) by (intros n; split; [apply W|apply W]).
    destruct (bits_words2 z true x u A W') as [E1 E2]; [intros n k Hk M; rewrite andb_true_r; apply unit_bit; [apply W|exact Hk|exact M]|exact E|].
    apply published_unique2; [exact W'|exact P|apply xws_wf|now apply rels|intros n Hn; symmetry; now apply E1|now symmetry].
Qed.
(* a polynomial that is a power of the shift on annihilated sequences *)
Lemma word_moves (g : nat -> row) cs l J z x : bsame (rbits l) cs = true -> (forall i, ract l z i = z (i + J)) -> (forall n, x n = xw g z n) -> forall n, lpol cs x n = x (J + n).
Proof.
  intros B H X n. apply N.bits_inj. intros k. rewrite lpol_bit. destruct (N.ltb_spec k 128) as [Hk|Hk].
  - rewrite (bact_ext cs _ (ract (g (N.to_nat k)) z)) by (intros i; now rewrite X, xw_bit). rewrite (bact_row l cs _ _ B), ract_ract.
    rewrite (ract_ext _ _ (sh J z)) by exact H. rewrite ract_sh, X, xw_bit by exact Hk. f_equal. lia.
  - assert (Wf : forall i, wf 128 (x i)) by (intros i; rewrite X; apply xw_wf).
    rewrite (bact_ext cs _ (fun _ => false)); [|intros i; apply (wf_off 128); [apply Wf|exact Hk]]. rewrite (wf_off 128 (x (J + n)) k) by (apply Wf || exact Hk).
    clear. revert n. induction cs as [|c cs IH]; intros n; [reflexivity|]. cbn [bact]. rewrite IH. now destruct c.
Qed.
Lemma plus_act l q z i : ann chi z -> ract (plus (table chi) l q) z i = ract l z i.
Proof.
  intros A. unfold plus. rewrite ract_lx, mulw_act. rewrite (ract_ext q _ (fun _ => false)) by exact A.
  rewrite ract_zero. apply xorb_false_r.
Qed.
Lemma power_moves2 cs l q J : bsame (rbits (plus (table chi) l q)) cs = true -> (forall z, ann chi z -> forall i, ract l z i = z (i + J)) -> moves cs J.
Proof.
  intros B H x u W P n. destruct (all_words2 x u W P) as (z & A & X).
  assert (H' : forall i, ract (plus (table chi) l q) z i = z (i + J)) by (intros i; rewrite plus_act by exact A; now apply H).
  split; [apply (word_moves h cs _ J z x B H')|apply (word_moves hu cs _ J z u B H')]; intros m; apply X.
Qed.
End All2.

(* ------------------------------------------- DSFMT19937 *)
Lemma drels_published chi h hu hc qu qx qc z : ann chi z -> drels_ok (table chi) h hu hc qu qx qc = true -> published (xw h z) (xw hu z) /\ forall n, ract hc z (n + 1) = ract hc z n.
Proof.
  intros A R. unfold drels_ok in R. apply andb_prop in R. destruct R as [R C]. rewrite forallb_forall in R.
  assert (Q : forall j, (j < 128)%nat -> rel_ok (table chi) (uterms h hu j) (nth j qu []) && rel_ok (table chi) (xterms h hu j) (nth j qx []) = true) by (intros j Hj; apply R, in_seq; lia).
  split.
  - apply xw_published2; intros j i Hj; specialize (Q j Hj); apply andb_prop in Q; destruct Q as [Q1 Q2]; [exact (rel_sound chi _ _ z i A Q1)|exact (rel_sound chi _ _ z i A Q2)].
  - intros n. pose proof (rel_sound chi _ _ z n A C) as E. cbn [map fold_right] in E. rewrite mulx_act in E by reflexivity. change (lN 1%uint63) with 1 in E.
    replace (n + 63 * N.of_nat 0 + 1) with (n + 1) in E by lia. rewrite xorb_false_r in E. now apply Bool.xorb_eq.
Qed.
Lemma ds_rels_published z : ann ds_chi z -> published (xw (xrow ds_hx0 ds_hc) z) (xw ds_hurow z) /\ forall n, ract ds_hc z (n + 1) = ract ds_hc z n.
Proof. intros A. exact (drels_published ds_chi (xrow ds_hx0 ds_hc) ds_hurow ds_hc ds_relu ds_relx ds_relc z A ds_rels_ok). Qed.
Lemma ds_reach u : ann ds_chi u ->
  (forall i, ract (ds_p 0) u i = u (i + 2 ^ 128)) /\ (forall i, ract (ds_p 1) u i = u (i + 16 * 2 ^ 128)) /\ (forall i, ract (ds_p 2) u i = u (i + 256 * 2 ^ 128)) /\
  (forall i, ract (ds_p 3) u i = u (i + 4096 * 2 ^ 128)) /\ (forall i, ract (ds_p 4) u i = u (i + 65536 * 2 ^ 128)).
Proof.
  intros A. assert (S0 : forall i, ract ds_start u i = u (i + 2 ^ 14)).
  { intros i. unfold ds_start. rewrite start_act. f_equal. change (2 ^ 14) with (63 * N.of_nat 260 + 4). lia. }
  pose proof (stages_reach 5 4 ds_chi ds_groups ds_start (2 ^ 14) u A S0 ds_stages_ok) as R. unfold ds_groups in R.
  apply (reach_five u (2 ^ 14) _ _ _ _ _ _ _ _ _ _ _ _ _ _ _ R); [rewrite ds_q0_length|rewrite ds_q1_length|rewrite ds_q2_length|rewrite ds_q3_length|rewrite ds_q4_length]; reflexivity.
Qed.
Theorem dsfmt_polys_move : polys_move dsfmt_polys (2 ^ 128).
Proof.
  pose proof (power_moves2 ds_hx0 ds_hurow ds_hc ds_chi ds_low ds_low_ok ds_low_length ds_h115 ds_rels_published) as M.
  unfold polys_move, dsfmt_polys. cbn [p144 p140 p136 p132 p128].
  split; [|split; [|split; [|split]]].
  - apply (M _ _ _ _ ds_text4_ok). intros u A. apply (ds_reach u A).
  - apply (M _ _ _ _ ds_text3_ok). intros u A. apply (ds_reach u A).
  - apply (M _ _ _ _ ds_text2_ok). intros u A. apply (ds_reach u A).
  - apply (M _ _ _ _ ds_text1_ok). intros u A. apply (ds_reach u A).
  - apply (M _ _ _ _ ds_text0_ok). intros u A. apply (ds_reach u A).
Qed.
