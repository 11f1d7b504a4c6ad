(* C83: bounded integers are drawn by exact rejection sampling *)
From Verif Require Import Word Bounded BoundedLem.
From Coq Require Import ZifyBool ZifyNat ZifyN.
Ltac Zify.zify_post_hook ::= idtac.
Open Scope N_scope.

Section P.
Context {St : Type}.
Variables (next32 next64 : St -> St * N).
Hypothesis (N32 : in_range 32 next32) (N64 : in_range 64 next64).

(* random_bounded_uint64: the result is off + k for the first word that the method accepts; each of the
   rng + 1 values of k comes from the same number q of words, and more than half of the words are accepted *)
Theorem C83_uint64 i128 rng um : 0 < rng -> rng < 2 ^ 64 ->
  let w := if rng <? 2 ^ 32 then 32 else 64 in
  exists ok val q, equal_classes w ok val (rng + 1) q /\ 2 ^ w < 2 * (q * (rng + 1)) /\ forall fuel off s,
    random_bounded_uint64 next32 next64 i128 fuel off rng (gen_mask rng) um s =
    option_map (fun r => (fst r, (off + val (snd r)) mod 2 ^ 64)) (first_ok fuel (if rng <? 2 ^ 32 then next32 else next64) ok s).
Proof.
  intros H0 H1 w. destruct (rng <? 2 ^ 32) eqn:L.
  - destruct (N.eq_dec rng 0xFFFFFFFF) as [->|E].
    { exists (fun _ => true), (fun x => x), 1. split; [apply (direct_classes 32)|]. split; [reflexivity|]. intros. now rewrite first_any. }
    unfold random_bounded_uint64. replace (rng =? 0) with false by lia. replace (rng <=? 0xFFFFFFFF) with true by lia. replace (rng =? 0xFFFFFFFF) with false by lia.
    rewrite (trunc_small 32 rng) by (unfold wf; lia). destruct um.
    + pose proof (size_le 32 rng ltac:(lia)) as Z. pose proof (size_bounds rng H0) as [B1 B2]. rewrite N.ones_equiv in B1, B2. pose proof (pow2_pos (N.size rng)) as P.
      exists (mok (N.size rng) rng), (mval (N.size rng)), (2 ^ (w - N.size rng)). split; [apply mask_classes; unfold w; lia|].
      assert (Ew : 2 ^ w = 2 ^ N.size rng * 2 ^ (w - N.size rng)) by (rewrite <- N.pow_add_r; f_equal; unfold w; lia). split.
      { rewrite Ew. pose proof (pow2_pos (w - N.size rng)). nia. }
      intros fuel off s. rewrite gen_mask_spec, trunc_ones, masked_spec by assumption. unfold plus. now destruct (first_ok _ _ _ _).
    + exists (lok 32 (rng + 1)), (lval 32 (rng + 1)), (2 ^ 32 / (rng + 1)). split; [apply lemire_classes; lia|]. split.
      { pose proof (lemire_rejected 32 (rng + 1) ltac:(lia) ltac:(lia)). unfold w. lia. }
      intros fuel off s. rewrite lemire_spec by (try assumption; lia). unfold plus. now destruct (first_ok _ _ _ _).
  - destruct (bounded_classes 64 rng um H0 H1) as (ok & val & q & C & Q & G). exists ok, val, q. split; [exact C|]. split; [exact Q|]. intros fuel off s.
    rewrite <- G by (try exact N64; lia). unfold random_bounded_uint64, random_bounded. replace (rng =? 0) with false by lia. replace (rng <=? 0xFFFFFFFF) with false by lia.
    change (2 ^ 64 - 1) with 0xFFFFFFFFFFFFFFFF. destruct (rng =? 0xFFFFFFFFFFFFFFFF) eqn:F; [reflexivity|].
    destruct um; [rewrite gen_mask_spec by exact H1; rewrite trunc_ones by (apply size_le; exact H1); reflexivity|].
    rewrite lemire_spec, lemire64_spec by (try exact N64; lia). reflexivity.
Qed.
(* random_buffered_bounded_uint32, uint16, uint8 (w = 32, 16, 8), on any source d of w-bit words *)
Theorem C83_uint w rng um : 0 < rng -> rng < 2 ^ w -> w <= 64 ->
  exists ok val q, equal_classes w ok val (rng + 1) q /\ 2 ^ w < 2 * (q * (rng + 1)) /\
  forall S (d : S -> S * N), in_range w d -> forall fuel off s,
    random_bounded fuel w d off rng (trunc w (gen_mask rng)) um s =
    option_map (fun r => (fst r, (off + val (snd r)) mod 2 ^ w)) (first_ok fuel d ok s).
Proof.
  intros H0 H1 W. destruct (bounded_classes w rng um H0 H1) as (ok & val & q & C & Q & G). exists ok, val, q. split; [exact C|]. split; [exact Q|].
  intros S d D fuel off s. now apply G.
Qed.
(* the calls end exactly when an accepted word comes, use the words up to that one, and return its value *)
Theorem C83_first {A} (d : St -> St * A) ok fuel s s' x :
  first_ok fuel d ok s = Some (s', x) <->
  exists n, (n <= fuel)%nat /\ (forall i, (i < n)%nat -> ok (nth_word d i s) = false) /\ ok (nth_word d n s) = true /\ x = nth_word d n s /\ s' = after d (Datatypes.S n) s.
Proof. apply first_ok_iff. Qed.
(* every result is off + k, wrapped, with k at most rng; rng = 0 draws nothing *)
Theorem C83_range i128 fuel off rng um s s' v : off < 2 ^ 64 -> rng < 2 ^ 64 ->
  random_bounded_uint64 next32 next64 i128 fuel off rng (gen_mask rng) um s = Some (s', v) -> exists k, k <= rng /\ v = (off + k) mod 2 ^ 64.
Proof.
  intros Ho H1 E. destruct (N.eq_dec rng 0) as [->|Z].
  - injection E as <- <-. exists 0. split; [lia|]. rewrite N.add_0_r. symmetry. now apply N.mod_small.
  - destruct (C83_uint64 i128 rng um ltac:(lia) H1) as (ok & val & q & (_ & V & _) & _ & G). rewrite G in E.
    destruct (first_ok _ _ ok s) as [[s1 x]|] eqn:F; [|discriminate]. injection E as _ <-. exists (val x). split; [|reflexivity].
    apply first_ok_iff in F as (n & _ & _ & O & -> & _). enough (val (nth_word (if rng <? 2 ^ 32 then next32 else next64) n s) < rng + 1) by lia.
    apply V; [|exact O]. unfold nth_word. destruct (rng <? 2 ^ 32); [apply N32|apply N64].
Qed.
Theorem C83_range_uint {S} w (d : S -> S * N) fuel off rng um s s' v : in_range w d -> w <= 64 -> off < 2 ^ w -> rng < 2 ^ w ->
  random_bounded fuel w d off rng (trunc w (gen_mask rng)) um s = Some (s', v) -> exists k, k <= rng /\ v = (off + k) mod 2 ^ w.
Proof.
  intros D W Ho H1 E. destruct (N.eq_dec rng 0) as [->|Z].
  - injection E as <- <-. exists 0. split; [lia|]. rewrite N.add_0_r. symmetry. now apply N.mod_small.
  - destruct (C83_uint w rng um ltac:(lia) H1 W) as (ok & val & q & (_ & V & _) & _ & G). rewrite (G S d D) in E.
    destruct (first_ok _ _ ok s) as [[s1 x]|] eqn:F; [|discriminate]. injection E as _ <-. exists (val x). split; [|reflexivity].
    apply first_ok_iff in F as (n & _ & _ & O & -> & _). enough (val (nth_word d n s) < rng + 1) by lia. apply V; [apply D|exact O].
Qed.
Theorem C83_zero {S} i128 fuel off mask um w (d : S -> S * N) s t :
  random_bounded_uint64 next32 next64 i128 fuel off 0 mask um s = Some (s, off) /\ random_bounded fuel w d off 0 mask um t = Some (t, off).
Proof. split; reflexivity. Qed.
(* with and without 128-bit integers the results are the same *)
Theorem C83_int128 fuel off rng mask um s : rng < 2 ^ 64 ->
  random_bounded_uint64 next32 next64 true fuel off rng mask um s = random_bounded_uint64 next32 next64 false fuel off rng mask um s.
Proof.
  intros H. unfold random_bounded_uint64. destruct (rng =? 0); [reflexivity|]. destruct (rng <=? 0xFFFFFFFF); [reflexivity|]. destruct (rng =? 0xFFFFFFFFFFFFFFFF) eqn:E; [reflexivity|].
  destruct um; [reflexivity|]. now rewrite !lemire64_spec by (try exact N64; lia).
Qed.
(* the smallest mask of ones that covers the range *)
Theorem C83_mask m : 0 < m -> m < 2 ^ 64 -> exists b, gen_mask m = 2 ^ b - 1 /\ m <= 2 ^ b - 1 /\ 2 ^ b - 1 < 2 * m.
Proof.
  intros H0 H1. exists (N.size m). rewrite gen_mask_spec by exact H1. pose proof (size_bounds m H0) as B. rewrite N.ones_equiv in *. pose proof (pow2_pos (N.size m)). lia.
Qed.
(* random_interval is the masked method with offset 0 *)
Theorem C83_interval i128 fuel max s : max < 2 ^ 64 ->
  random_interval next32 next64 fuel max s = random_bounded_uint64 next32 next64 i128 fuel 0 max (gen_mask max) true s.
Proof.
  intros H. unfold random_interval, random_bounded_uint64. destruct (max =? 0) eqn:Z; [reflexivity|]. cbn zeta. rewrite gen_mask_spec by exact H.
  assert (P : forall S (d : S -> S * N) (D : in_range 64 d) b f rng s, plus 64 0 (masked f d rng (N.ones b) s) = masked f d rng (N.ones b) s).
  { intros S d D b f rng u. rewrite masked_spec. destruct (first_ok f d (mok b rng) u) as [[u1 x]|] eqn:F; [|reflexivity]. cbn [plus option_map fst snd]. unfold wadd, mval. do 2 f_equal.
    rewrite N.add_0_l. apply N.mod_small. apply first_ok_iff in F as (n & _ & _ & _ & -> & _). pose proof (D (after d n u)). unfold nth_word. pose proof (N.mod_le (snd (d (after d n u))) (2 ^ b) (pow2_nz b)). lia. }
  assert (D32 : in_range 64 next32) by (intros u; pose proof (N32 u); change (2 ^ 64) with (2 ^ 32 * 2 ^ 32); nia).
  destruct (max <=? 0xFFFFFFFF) eqn:L.
  - rewrite (trunc_small 32 max) by (unfold wf; lia). rewrite trunc_ones by (apply size_le; lia).
    destruct (max =? 0xFFFFFFFF) eqn:E; [|symmetry; now apply P]. replace max with 0xFFFFFFFF by lia.
    rewrite <- P by exact D32. f_equal. rewrite masked_spec. change (N.size 0xFFFFFFFF) with 32. unfold mok.
    assert (F : first_ok fuel next32 (fun x => x mod 2 ^ 32 <=? 0xFFFFFFFF) s = Some (next32 s)).
    { destruct fuel; cbn [first_ok]; destruct (next32 s) as [s1 x]; pose proof (N.mod_lt x (2 ^ 32) (pow2_nz 32)); now replace (x mod 2 ^ 32 <=? 0xFFFFFFFF) with true by lia. }
    rewrite F. pose proof (N32 s) as X. destruct (next32 s) as [s1 x]. cbn [option_map fst snd] in *. unfold mval. now rewrite N.mod_small.
  - destruct (max =? 0xFFFFFFFFFFFFFFFF) eqn:E; [|symmetry; now apply P]. replace max with 0xFFFFFFFFFFFFFFFF by lia.
    rewrite <- P by exact N64. f_equal. rewrite masked_spec. change (N.size 0xFFFFFFFFFFFFFFFF) with 64. unfold mok.
    assert (F : first_ok fuel next64 (fun x => x mod 2 ^ 64 <=? 0xFFFFFFFFFFFFFFFF) s = Some (next64 s)).
    { destruct fuel; cbn [first_ok]; destruct (next64 s) as [s1 x]; pose proof (N.mod_lt x (2 ^ 64) (pow2_nz 64)); now replace (x mod 2 ^ 64 <=? 0xFFFFFFFFFFFFFFFF) with true by lia. }
    rewrite F. pose proof (N64 s) as X. destruct (next64 s) as [s1 x]. cbn [option_map fst snd] in *. unfold mval. now rewrite N.mod_small.
Qed.
(* the buffered 16-bit, 8-bit and 1-bit sources give the digits of the successive 32-bit words, lowest first *)
Theorem C83_digits s n :
  nth_word (buffered 16 next32) n (fresh s) = (nth_word next32 (n / 2) s / 2 ^ (16 * N.of_nat (n mod 2))) mod 2 ^ 16 /\
  nth_word (buffered 8 next32) n (fresh s) = (nth_word next32 (n / 4) s / 2 ^ (8 * N.of_nat (n mod 4))) mod 2 ^ 8 /\
  nth_word (bounded_bool next32 0 1) n (fresh s) = (nth_word next32 (n / 32) s / 2 ^ N.of_nat (n mod 32)) mod 2.
Proof.
  split; [apply buffered_word; [lia|reflexivity|lia]|]. split; [apply buffered_word; [lia|reflexivity|lia]|].
  change (bounded_bool next32 0 1) with (buffered 1 next32). rewrite (buffered_word 1 32) by (lia || reflexivity). now rewrite N.mul_1_l.
Qed.
Theorem C83_buffered_range bits : in_range bits (buffered bits next32).
Proof. apply buffered_range. Qed.
(* a fill is the same draws one after another, with the mask of gen_mask *)
Theorem C83_fill64 i128 fuel off rng cnt um s :
  bounded_uint64_fill next32 next64 i128 fuel off rng cnt um s = filled (random_bounded_uint64 next32 next64 i128 fuel off rng (gen_mask rng) um) cnt s.
Proof.
  unfold bounded_uint64_fill. cbn zeta. destruct (rng =? 0) eqn:A; [|destruct (rng <=? 0xFFFFFFFF) eqn:B; [destruct (rng =? 0xFFFFFFFF) eqn:C|destruct (rng =? 0xFFFFFFFFFFFFFFFF) eqn:C]; try destruct um];
    apply filled_ext; intros u; unfold random_bounded_uint64; rewrite A; try reflexivity; rewrite B, C; reflexivity.
Qed.
Theorem C83_fill {S} w (d : S -> S * N) fuel off rng cnt um s :
  bounded_fill fuel w d off rng cnt um s = filled (random_bounded fuel w d off rng (trunc w (gen_mask rng)) um) cnt s.
Proof.
  unfold bounded_fill. cbn zeta. destruct (rng =? 0) eqn:A; [|destruct (rng =? 2 ^ w - 1) eqn:C; try destruct um];
    apply filled_ext; intros u; unfold random_bounded; rewrite A; try reflexivity; rewrite C; reflexivity.
Qed.
Theorem C83_fills fuel off rng cnt um s :
  bounded_uint32_fill next32 fuel off rng cnt um s = filled (random_bounded fuel 32 next32 off rng (trunc 32 (gen_mask rng)) um) cnt s /\
  bounded_uint16_fill next32 fuel off rng cnt um s =
    option_map (fun r => (b_st (fst r), snd r)) (filled (random_bounded fuel 16 (buffered 16 next32) off rng (trunc 16 (gen_mask rng)) um) cnt (fresh s)) /\
  bounded_uint8_fill next32 fuel off rng cnt um s =
    option_map (fun r => (b_st (fst r), snd r)) (filled (random_bounded fuel 8 (buffered 8 next32) off rng (trunc 8 (gen_mask rng)) um) cnt (fresh s)).
Proof.
  split; [apply C83_fill|]. unfold bounded_uint16_fill, bounded_uint8_fill, local. now rewrite !C83_fill.
Qed.
(* 32- and 64-bit fills may be split: m after n is n + m *)
Theorem C83_split i128 fuel off rng n m um s :
  let joined f := match f n s with None => None | Some (s1, l) => match f m s1 with None => None | Some (s2, l2) => Some (s2, l ++ l2) end end in
  bounded_uint64_fill next32 next64 i128 fuel off rng (n + m) um s = joined (fun k => bounded_uint64_fill next32 next64 i128 fuel off rng k um) /\
  bounded_uint32_fill next32 fuel off rng (n + m) um s = joined (fun k => bounded_uint32_fill next32 fuel off rng k um).
Proof.
  cbn zeta. split.
  - rewrite !C83_fill64, filled_app. destruct (filled _ n s) as [[s1 l]|]; [|reflexivity]. now rewrite C83_fill64.
  - unfold bounded_uint32_fill. rewrite !C83_fill, filled_app. destruct (filled _ n s) as [[s1 l]|]; [|reflexivity]. now rewrite C83_fill.
Qed.
End P.

(* 8-, 16- and 1-bit fills may not: what is left in the buffer is dropped at the end of a call *)
Definition counter (s : N) : N * N := (s + 1, (s * 0x9E3779B9) mod 2 ^ 32).
Theorem C83_split_refuted :
  bounded_uint8_fill counter 9 0 255 2 false 1 = Some (2, [0xB9; 0x79]) /\ bounded_uint8_fill counter 9 0 255 1 false 1 = Some (2, [0xB9]) /\ bounded_uint8_fill counter 9 0 255 1 false 2 = Some (3, [0x72]) /\
  bounded_uint16_fill counter 9 0 0xFFFF 2 false 1 = Some (2, [0x79B9; 0x9E37]) /\ bounded_uint16_fill counter 9 0 0xFFFF 1 false 2 = Some (3, [0xF372]) /\
  bounded_bool_fill counter 0 1 2 1 = Some (2, [1; 0]) /\ bounded_bool_fill counter 0 1 1 1 = Some (2, [1]) /\ bounded_bool_fill counter 0 1 1 3 = Some (4, [1]).
Proof. vm_compute. intuition reflexivity. Qed.
(* a source whose words are all rejected keeps the call running for ever *)
Theorem C83_stuck_refuted fuel : random_bounded_uint64 (fun s : unit => (s, 2 ^ 32 - 1)) (fun s => (s, 0)) true fuel 0 (2 ^ 32 - 2) (gen_mask (2 ^ 32 - 2)) true tt = None.
Proof.
  change (random_bounded_uint64 _ _ true fuel 0 (2 ^ 32 - 2) (gen_mask (2 ^ 32 - 2)) true tt) with
    (plus 64 0 (masked fuel (fun s : unit => (s, 2 ^ 32 - 1)) (2 ^ 32 - 2) (N.ones 32) tt)).
  rewrite masked_spec. destruct (first_ok _ _ _ tt) as [[u x]|] eqn:E; [|reflexivity]. apply first_ok_iff in E as (n & _ & _ & O & _ & _). now vm_compute in O.
Qed.
Example C83_case :
  in_range 32 counter /\
  random_bounded_uint64 counter counter true 9 100 5 (gen_mask 5) false 1 = Some (2, 103) /\
  random_bounded_uint64 counter counter true 9 100 5 (gen_mask 5) true 1 = Some (2, 101) /\
  random_bounded_uint64 counter counter false 9 100 (2 ^ 63) (gen_mask (2 ^ 63)) true 1 = Some (2, 0x9E3779B9 + 100) /\
  random_bounded 9 8 (buffered 8 counter) 250 9 (trunc 8 (gen_mask 9)) false (fresh 1) = Some ({| b_st := 2; b_cnt := 3; b_buf := 0x9E3779B9 |}, 1) /\
  random_interval counter counter 9 5 4 = Some (5, 4) /\
  equal_classes 8 (lok 8 10) (lval 8 10) 10 25.
Proof.
  split; [intros s; cbn [counter snd]; apply N.mod_lt; discriminate|]. do 5 (split; [vm_compute; reflexivity|]). now apply (lemire_classes 8 10).
Qed.

Print Assumptions C83_uint64.
Print Assumptions C83_uint.
Print Assumptions C83_first.
Print Assumptions C83_range.
Print Assumptions C83_range_uint.
Print Assumptions C83_zero.
Print Assumptions C83_int128.
Print Assumptions C83_mask.
Print Assumptions C83_interval.
Print Assumptions C83_digits.
Print Assumptions C83_buffered_range.
Print Assumptions C83_fill64.
Print Assumptions C83_fill.
Print Assumptions C83_fills.
Print Assumptions C83_split.
Print Assumptions C83_split_refuted.
Print Assumptions C83_stuck_refuted.
