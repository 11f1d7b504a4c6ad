(* The fill_array functions of SFMT and dSFMT for arrays of every size *)
From Verif Require Import Word Arr OptBuffer Half Lagged LaggedBuf Sfmt SfmtFacts Dsfmt DsfmtFacts FillArr FillC PropSfmt.
From Verif Require PropDsfmt.
From Coq Require Import List ZArith NArith Lia ZifyBool ZifyNat ZifyN.
Import ListNotations.
Open Scope N_scope.
Ltac Zify.zify_post_hook ::= idtac.

(* the words x_n, x_(n+1), ..., of a sequence, k of them *)
Definition words (x : N -> N) (n : N) (k : nat) : list N := map (fun j => x (n + N.of_nat j)) (seq 0 k).
(* the 64-bit values of an array of 128-bit words, low half first *)
Definition values (a : list N) : list N := flat_map (fun w => [w mod 2 ^ 64; w / 2 ^ 64 mod 2 ^ 64]) a.

Lemma seq_from a b : seq a b = map (fun j => (a + j)%nat) (seq 0 b).
Proof.
  revert a. induction b as [|b IH]; intros a; [reflexivity|]. cbn [seq map]. f_equal; [lia|]. rewrite (IH (S a)), <- (seq_shift b 0), map_map.
  apply map_ext. intros j. lia.
Qed.
Lemma words_app x n a b : words x n (a + b) = words x n a ++ words x (n + N.of_nat a) b.
Proof.
  unfold words. rewrite seq_app, map_app. f_equal. rewrite Nat.add_0_l, (seq_from a b), map_map. apply map_ext. intros j. f_equal. lia.
Qed.
Lemma values_halves a : values a = halves a.
Proof. unfold values, halves. apply flat_map_ext. intros w. unfold trunc. now rewrite N.shiftr_div_pow2. Qed.
Lemma win_words K x n : win K x n = words x n K.
Proof. reflexivity. Qed.
Lemma values_words x n k : values (words x n k) = map (fun i => half64 x (2 * n + N.of_nat i)) (seq 0 (2 * k)).
Proof.
  revert n. induction k as [|k IH]; intros n; [reflexivity|]. replace (S k) with (1 + k)%nat by lia. rewrite words_app. unfold values in *. rewrite flat_map_app, IH.
  replace (2 * (1 + k))%nat with (2 + 2 * k)%nat by lia. rewrite seq_app, map_app. unfold words. cbn [seq map flat_map app].
  change (N.of_nat 0) with 0. change (N.of_nat 1) with 1. rewrite !N.add_0_r. unfold half64, trunc.
  replace (2 * n / 2) with n by (rewrite N.mul_comm, N.div_mul; lia). replace ((2 * n) mod 2) with 0 by (rewrite N.mul_comm, N.mod_mul; lia).
  replace ((2 * n + 1) / 2) with n by (apply (N.div_unique _ _ _ 1); lia). replace ((2 * n + 1) mod 2) with 1 by (apply (N.mod_unique _ _ n); lia).
  change (64 * 0) with 0. change (64 * 1) with 64. rewrite !N.shiftr_div_pow2. change (2 ^ 0) with 1. rewrite N.div_1_r. do 2 f_equal.
  rewrite Nat.add_0_l, (seq_from 2 (2 * k)).
  rewrite map_map. apply map_ext. intros i. replace (2 * (n + 1) + N.of_nat i) with (2 * n + N.of_nat (2 + i)) by lia. reflexivity.
Qed.
Lemma sf_fill_words dbg per size st arr x : (0 < per)%nat -> legal st -> starts st x -> (size mod per = 0)%nat -> (per * 156 <= size)%nat -> List.length arr = (size / per)%nat ->
  sf_fill dbg per size st 624 arr = Some (words x (N.of_nat (size / per)) 156, 624%Z, words x 156 (size / per)).
Proof.
  intros P L S M G A. unfold sf_fill. rewrite (proj2 (Nat.eqb_eq _ _) M). rewrite (proj2 (Nat.leb_le (per * sfK) size) G).
  rewrite Z.eqb_refl, orb_true_r. pose proof (starts_lstarts _ _ L S) as T.
  assert (K : (sfK <= size / per)%nat) by (apply Nat.div_le_lower_bound; [lia|exact G]).
  rewrite (gen_rand_array_spec sfK sfP sf_f sf_g (fun w => w) sK2 sPK (size / per) x (fun _ => 0) K (proj2 (proj2 (proj2 T))) st 0 arr T A).
  reflexivity.
Qed.
Lemma ds_fill_words dbg conv size st u0 arr x u : PropDsfmt.legal st -> PropDsfmt.starts st u0 x u -> (size mod 2 = 0)%nat -> (382 <= size)%nat -> List.length arr = (size / 2)%nat ->
  ds_fill dbg conv size st u0 arr = Some (words x (N.of_nat (size / 2)) 191, u (N.of_nat (size / 2)), map conv (words x 191 (size / 2))).
Proof.
  intros L S M G A. unfold ds_fill. rewrite (proj2 (Nat.eqb_eq _ _) M). rewrite (proj2 (Nat.leb_le (2 * dsK) size) G).
  rewrite orb_true_r. pose proof (PropDsfmt.starts_lstarts _ _ _ _ L S) as T.
  assert (K : (dsK <= size / 2)%nat) by (apply Nat.div_le_lower_bound; [lia|exact G]).
  rewrite (gen_rand_array_spec dsK dsP ds_f ds_g conv dK2 dPK (size / 2) x u K (proj2 (proj2 (proj2 T))) st u0 arr T A).
  unfold words. rewrite map_map. reflexivity.
Qed.

(* ------------------------------------------------------------------- C87 *)
(* SFMT: the array receives the words that follow the state in the sequence of the
   recurrence, and the state becomes the last 156 words reached, for every size, with
   or without assertions and whatever the array held *)
Theorem C87_sfmt_fill :
  forall dbg per size st arr x, per = 4%nat \/ per = 2%nat -> legal st -> starts st x ->
  (size mod per = 0)%nat -> (per * 156 <= size)%nat -> List.length arr = (size / per)%nat ->
  sf_fill dbg per size st 624 arr = Some (words x (N.of_nat (size / per)) 156, 624%Z, words x 156 (size / per)).
Proof. intros dbg per size st arr x [->| ->] L S M G A; apply sf_fill_words; auto; lia. Qed.
(* the values are those that single draws give from an empty buffer *)
Theorem C87_sfmt_fill_as_draws :
  forall dbg dbg' size st arr buf, legal st -> (size mod 2 = 0)%nat -> (312 <= size)%nat -> List.length arr = (size / 2)%nat -> List.length buf = 312%nat ->
  option_map (fun r => values (snd r)) (sf_fill dbg 2 size st 624 arr) = option_map snd (sf_draws dbg' size (LB st 0 624 buf 312)).
Proof.
  intros dbg dbg' size st arr buf L M G A B. pose proof (starts_lx st L) as S. set (x := lx sfK sfP sf_f sf_g st 0) in *.
  rewrite (sf_fill_words dbg 2 size st arr x) by (assumption || lia). rewrite (C60_sfmt_is_the_recurrence dbg' st buf x size L B S).
  cbn [option_map snd]. f_equal. rewrite values_words. change (2 * 156) with 312. f_equal. f_equal.
  pose proof (Nat.div_mod size 2 ltac:(lia)). lia.
Qed.
(* 32-bit filling writes the same bytes as 64-bit filling *)
Theorem C87_sfmt_fill32_fill64 :
  forall dbg size st idx arr, legal st -> (size mod 4 = 0)%nat -> sf_fill dbg 4 size st idx arr = sf_fill dbg 2 (size / 2) st idx arr.
Proof.
  intros dbg size st idx arr L M. unfold sf_fill. pose proof (Nat.div_mod size 4 ltac:(lia)) as D. rewrite M in D. set (q := (size / 4)%nat) in *.
  assert (H : (size / 2 = 2 * q)%nat) by (rewrite D; replace (4 * q + 0)%nat with (2 * q * 2)%nat by lia; now rewrite Nat.div_mul).
  rewrite H. replace (2 * q / 2)%nat with q by (rewrite Nat.mul_comm, Nat.div_mul; lia). replace (2 * q mod 2)%nat with 0%nat by (rewrite Nat.mul_comm, Nat.mod_mul; lia).
  rewrite M. replace (2 * sfK <=? 2 * q)%nat with (4 * sfK <=? size)%nat; [reflexivity|]. unfold sfK. apply Bool.eq_iff_eq_true. rewrite !Nat.leb_le. lia.
Qed.
(* two fillings are one *)
Theorem C87_sfmt_fill_twice :
  forall dbg st m n a1 a2 a3 s1 o1 s2 o2, legal st -> (m mod 2 = 0)%nat -> (n mod 2 = 0)%nat -> (312 <= m)%nat -> (312 <= n)%nat ->
  List.length a1 = (m / 2)%nat -> List.length a2 = (n / 2)%nat -> List.length a3 = (m / 2 + n / 2)%nat ->
  sf_fill dbg 2 m st 624 a1 = Some (s1, 624%Z, o1) -> sf_fill dbg 2 n s1 624 a2 = Some (s2, 624%Z, o2) ->
  sf_fill dbg 2 (m + n) st 624 a3 = Some (s2, 624%Z, o1 ++ o2).
Proof.
  intros dbg st m n a1 a2 a3 s1 o1 s2 o2 L Mm Mn Gm Gn A1 A2 A3. pose proof (starts_lx st L) as S. set (x := lx sfK sfP sf_f sf_g st 0) in *.
  rewrite (sf_fill_words dbg 2 m st a1 x) by (assumption || lia).
  pose proof (Nat.div_mod m 2 ltac:(lia)) as Dm. pose proof (Nat.div_mod n 2 ltac:(lia)) as Dn. rewrite Mm in Dm. rewrite Mn in Dn.
  remember (m / 2)%nat as p eqn:Ep. remember (n / 2)%nat as q eqn:Eq. intros E. injection E as <- <-.
  assert (H : ((m + n) / 2 = p + q)%nat) by (rewrite Dm, Dn; replace (2 * p + 0 + (2 * q + 0))%nat with ((p + q) * 2)%nat by lia; now rewrite Nat.div_mul).
  assert (S1 : starts (words x (N.of_nat p) 156) (fun i => x (N.of_nat p + i))).
  { destruct S as (W & R & B). split; [intros i; apply W|]. split; [|intros i Hi; unfold words; rewrite (nth_indep _ 0 (x (N.of_nat p + N.of_nat 0))) by (rewrite map_length, seq_length; lia);
      rewrite (map_nth (fun j => x (N.of_nat p + N.of_nat j)) (seq 0 156) 0%nat), seq_nth by lia; f_equal; lia].
    intros i. specialize (R (N.of_nat p + i)). rewrite <- !N.add_assoc in R. exact R. }
  assert (L1 : legal (words x (N.of_nat p) 156)).
  { split; [unfold words; now rewrite map_length, seq_length|]. apply Forall_forall. intros w I. apply in_map_iff in I. destruct I as (j & <- & _). apply S. }
  rewrite (sf_fill_words dbg 2 n _ a2 _ ltac:(lia) L1 S1 Mn ltac:(lia)) by (rewrite <- Eq; exact A2). rewrite <- Eq. intros E. injection E as <- <-.
  rewrite (sf_fill_words dbg 2 (m + n) st a3 x ltac:(lia) L S) by (try rewrite H; try lia; rewrite Dm, Dn; replace (2 * p + 0 + (2 * q + 0))%nat with ((p + q) * 2)%nat by lia; now rewrite Nat.mod_mul).
  rewrite H. rewrite words_app.
  replace (words (fun i => x (N.of_nat p + i)) (N.of_nat q) 156) with (words x (N.of_nat (p + q)) 156) by (unfold words; apply map_ext; intros j; f_equal; lia).
  replace (words (fun i => x (N.of_nat p + i)) 156 q) with (words x (156 + N.of_nat p) q) by (unfold words; apply map_ext; intros j; f_equal; lia).
  reflexivity.
Qed.
(* with the assertions, filling is refused inside a block, and for a wrong size *)
Theorem C87_sfmt_refused :
  forall per size st idx arr, idx <> 624%Z \/ (size mod per <> 0)%nat \/ (size < per * 156)%nat -> sf_fill true per size st idx arr = None.
Proof.
  intros per size st idx arr H. unfold sf_fill. replace (_ || _)%bool with false; [reflexivity|]. symmetry. cbn [negb orb]. unfold sfK.
  destruct H as [H|[H|H]].
  - now rewrite (proj2 (Z.eqb_neq _ _) H).
  - rewrite (proj2 (Nat.eqb_neq _ _) H). now rewrite andb_false_r.
  - rewrite (proj2 (Nat.leb_gt _ _) H). now rewrite andb_false_r.
Qed.

(* dSFMT: the same, with every word passed through the conversion *)
Theorem C87_dsfmt_fill :
  forall dbg conv size st u0 arr x u, PropDsfmt.legal st -> PropDsfmt.starts st u0 x u ->
  (size mod 2 = 0)%nat -> (382 <= size)%nat -> List.length arr = (size / 2)%nat ->
  ds_fill dbg conv size st u0 arr = Some (words x (N.of_nat (size / 2)) 191, u (N.of_nat (size / 2)), map conv (words x 191 (size / 2))).
Proof. exact ds_fill_words. Qed.
Theorem C87_dsfmt_fill_as_draws :
  forall dbg size st u0 idx arr buf, PropDsfmt.legal st -> u0 < 2 ^ 128 -> (size mod 2 = 0)%nat -> (382 <= size)%nat -> List.length arr = (size / 2)%nat -> List.length buf = 382%nat ->
  option_map (fun r => values (snd r)) (ds_fill dbg (fun w => w) size st u0 arr) = option_map snd (ds_draws size (LB st u0 idx buf 382)).
Proof.
  intros dbg size st u0 idx arr buf L U M G A B. pose proof (PropDsfmt.starts_lx st u0 L U) as S. set (x := lx dsK dsP ds_f ds_g st u0) in *. set (u := lu dsK dsP ds_f ds_g st u0) in *.
  rewrite (ds_fill_words dbg _ size st u0 arr x u) by assumption. rewrite (PropDsfmt.C60_dsfmt_is_the_recurrence st u0 idx buf x u size L B S).
  cbn [option_map snd]. f_equal. rewrite map_id, values_words. change (2 * 191) with 382. f_equal. f_equal.
  pose proof (Nat.div_mod size 2 ltac:(lia)). lia.
Qed.
(* each variant converts the array of the [1, 2) variant and leaves the same state *)
Theorem C87_dsfmt_variants :
  forall dbg conv size st u0 arr arr', PropDsfmt.legal st -> u0 < 2 ^ 128 -> (size mod 2 = 0)%nat -> (382 <= size)%nat ->
  List.length arr = (size / 2)%nat -> List.length arr' = (size / 2)%nat ->
  exists st' u' out, ds_fill dbg (fun w => w) size st u0 arr = Some (st', u', out) /\ ds_fill dbg conv size st u0 arr' = Some (st', u', map conv out).
Proof.
  intros dbg conv size st u0 arr arr' L U M G A A'. pose proof (PropDsfmt.starts_lx st u0 L U) as S. do 3 eexists.
  rewrite (ds_fill_words dbg (fun w => w) size st u0 arr _ _ L S M G A). split; [reflexivity|]. rewrite map_id.
  exact (ds_fill_words dbg conv size st u0 arr' _ _ L S M G A').
Qed.
(* the ranges: a state of doubles in [1, 2) fills the array with doubles in [1, 2),
   2^52 + m over 2^52; the variants give m, 2^52 - m and m or m + 1, whichever is odd *)
Theorem C87_dsfmt_ranges :
  forall dbg size st u0 arr, List.length st = 191%nat -> Forall unit_word st -> u0 < 2 ^ 128 -> (size mod 2 = 0)%nat -> (382 <= size)%nat -> List.length arr = (size / 2)%nat ->
  exists ms st' u',
    ds_fill dbg (fun w => w) size st u0 arr = Some (st', u', map (fun p => dw (0x3FF * 2 ^ 52 + fst p) (0x3FF * 2 ^ 52 + snd p)) ms) /\
    ds_fill dbg conv_c0o1 size st u0 arr = Some (st', u', map (fun p => dw (fst p) (snd p)) ms) /\
    ds_fill dbg conv_o0c1 size st u0 arr = Some (st', u', map (fun p => dw (2 ^ 52 - fst p) (2 ^ 52 - snd p)) ms) /\
    ds_fill dbg conv_o0o1 size st u0 arr = Some (st', u', map (fun p => dw (2 * (fst p / 2) + 1) (2 * (snd p / 2) + 1)) ms) /\
    List.length ms = (size / 2)%nat /\ Forall (fun p => fst p < 2 ^ 52 /\ snd p < 2 ^ 52) ms /\ Forall unit_word st'.
Proof.
  intros dbg size st u0 arr Ls F U M G A.
  assert (L : PropDsfmt.legal st) by (split; [exact Ls|eapply Forall_impl; [|exact F]; intros w H; apply H]).
  pose proof (PropDsfmt.starts_lx st u0 L U) as S. set (x := lx dsK dsP ds_f ds_g st u0) in *. set (u := lu dsK dsP ds_f ds_g st u0) in *.
  pose proof (lseq_sok dsK dsP ds_f ds_g (fun _ => true) dK2 dPK unit_word wf128 dK3 unit_ok unit_inj st u0 (conj Ls (conj F U))) as [X _]. fold x in X.
  exists (map (fun w => (mant (dlo w), mant (dhi w))) (words x 191 (size / 2))), (words x (N.of_nat (size / 2)) 191), (u (N.of_nat (size / 2))).
  rewrite !(fun c => ds_fill_words dbg c size st u0 arr x u L S M G A). rewrite !map_map. cbn [fst snd].
  assert (Q : forall w, mant w < 2 ^ 52) by (intros w; apply N.mod_lt; discriminate).
  assert (H64 : forall w, N.shiftr w 52 = 0x3FF -> 0x3FF * 2 ^ 52 + mant w = w).
  { intros w E. rewrite N.shiftr_div_pow2 in E. unfold mant. pose proof (N.div_mod w (2 ^ 52) ltac:(discriminate)) as D. rewrite E in D. rewrite N.mul_comm. symmetry. exact D. }
  assert (O : forall w, mant (N.lor w 1) = 2 * (mant w / 2) + 1).
  { intros w. unfold mant. rewrite <- !N.land_ones. rewrite N.land_lor_distr_l. change (N.land 1 (N.ones 52)) with 1. set (v := N.land w (N.ones 52)).
    pose proof (N.div_mod v 2 ltac:(discriminate)) as D. apply N.bits_inj. intros i. rewrite N.lor_spec. destruct i as [|i].
    - rewrite N.testbit_odd_0. cbn. apply orb_true_r.
    - replace (N.pos i) with (N.succ (N.pred (N.pos i))) by lia. rewrite N.testbit_odd_succ by lia. rewrite <- N.div2_div, N.div2_spec, N.shiftr_spec by lia.
      rewrite N.add_1_r. rewrite (N.bits_above_log2 1) by (cbn; lia). apply orb_false_r. }
  split; [do 2 f_equal; apply map_ext_in; intros w I|split; [reflexivity|split; [reflexivity|split; [do 2 f_equal; apply map_ext; intros w; unfold conv_o0o1; now rewrite !O|]]]].
  - apply in_map_iff in I. destruct I as (j & <- & _). destruct (X (191 + N.of_nat j)) as (W & E1 & E2). rewrite !H64 by assumption. symmetry. now apply dw_eta.
  - split; [unfold words; now rewrite !map_length, seq_length|]. split.
    + apply Forall_forall. intros p I. apply in_map_iff in I. destruct I as (w & <- & _). split; apply Q.
    + apply Forall_forall. intros w I. apply in_map_iff in I. destruct I as (j & <- & _). apply X.
Qed.
Theorem C87_dsfmt_refused :
  forall conv size st u arr, (size mod 2 <> 0)%nat \/ (size < 382)%nat -> ds_fill true conv size st u arr = None.
Proof.
  intros conv size st u arr H. unfold ds_fill. replace (_ || _)%bool with false; [reflexivity|]. symmetry. cbn [negb orb]. unfold dsK.
  destruct H as [H|H].
  - now rewrite (proj2 (Nat.eqb_neq _ _) H).
  - rewrite (proj2 (Nat.leb_gt (2 * 191) size) H). now rewrite andb_false_r.
Qed.
(* without the assertions, a smaller array is written past its end *)
Theorem C87_too_small :
  sf_fill false 2 310 ex_st 624 (repeat 0 155) = None /\ ds_fill false conv_c0o1 380 PropDsfmt.ex_st 1 (repeat 0 190) = None.
Proof. vm_compute. split; reflexivity. Qed.
Example C87_case :
  legal ex_st /\ Forall unit_word PropDsfmt.ex_st /\
  exists st' out, sf_fill true 2 320 ex_st 624 (repeat 7 160) = Some (st', 624%Z, out) /\ List.length out = 160%nat.
Proof.
  split; [exact ex_st_legal|]. split; [exact PropDsfmt.ex_st_unit|].
  rewrite (sf_fill_words true 2 320 ex_st (repeat 7 160) _ ltac:(lia) ex_st_legal (starts_lx _ ex_st_legal) eq_refl ltac:(lia) (repeat_length _ _)).
  do 2 eexists. split; [reflexivity|]. unfold words. now rewrite map_length, seq_length.
Qed.

Print Assumptions C87_sfmt_fill.
Print Assumptions C87_sfmt_fill_as_draws.
Print Assumptions C87_sfmt_fill32_fill64.
Print Assumptions C87_sfmt_fill_twice.
Print Assumptions C87_sfmt_refused.
Print Assumptions C87_dsfmt_fill.
Print Assumptions C87_dsfmt_fill_as_draws.
Print Assumptions C87_dsfmt_variants.
Print Assumptions C87_dsfmt_ranges.
Print Assumptions C87_dsfmt_refused.
Print Assumptions C87_too_small.
