(* Properties of SFC64.

   sfc_next: one raw draw (state, value). sfc_step: the state after it. A
   generator object is a state together with the buffered 32-bit half. *)
From Verif Require Import Word Arr Buffer32 Py Half SeedSeq Sfc SfcFacts Weyl.
From Coq Require Import String ZifyBool ZifyNat ZifyN.
Open Scope N_scope.
Ltac Zify.zify_post_hook ::= idtac.

Definition words64 (seed : Z) (n : nat) : list N := match ss_pool (SS (SInt seed) [] 4 0) with Some p => generate64 n p | None => [] end.
Definition ex_sfc (h : bool) : sfcpy := Buf (Sfc 1 2 3 4 5) h 77.

(* SFC64(0xdeadbeaf): the values in tests/data/sfc-testset-1.csv *)
Example sfc_known_answers : exists b, sfc_seed_from (Some 1) (Some 1) (words64 0xdeadbeaf 3) = Some b
  /\ snd (raws sfc_next 3 (core b)) = [0xa475f55fbb6bc638; 0xb2d594b6c29d971c; 0x275bc4ece4484fb1].
Proof. eexists. split; [vm_compute; reflexivity|]. vm_compute. reflexivity. Qed.

(* ------------------------------------------------------------------- C24 *)
Theorem C24_sfc_never_merges :
  forall n s t, sf_ok s -> sf_ok t -> s <> t -> N.iter n sfc_step s <> N.iter n sfc_step t.
Proof. intros n s t Hs Ht Hne H. apply Hne. exact (sfc_iter_inj n s t Hs Ht H). Qed.
Example C24_sfc_case : sf_ok (Sfc 1 2 3 4 5) /\ sf_ok (Sfc 1 2 3 4 7) /\ sf_a (N.iter 3 sfc_step (Sfc 1 2 3 4 5)) <> 0.
Proof. split; [repeat split|]. split; [repeat split|]. vm_compute. discriminate. Qed.

(* ------------------------------------------------------------------- C25 *)
Theorem C25_sfc_seeds_distinct :
  forall s0 s1 s2 w k t0 t1 t2 w' k', Forall (wf 64) [s0; s1; s2; w; k; t0; t1; t2; w'; k'] ->
  sfc_seed s0 s1 s2 w k = sfc_seed t0 t1 t2 w' k' -> [s0; s1; s2; w; k] = [t0; t1; t2; w'; k'].
Proof.
  intros s0 s1 s2 w k t0 t1 t2 w' k' F H. unfold sfc_seed in H. rewrite Forall_forall in F.
  apply sfc_iter_inj in H; [injection H as -> -> -> -> ->; reflexivity| |];
    (refine (conj _ (conj _ (conj _ (conj _ _)))); apply F; cbn; tauto).
Qed.
Example C25_sfc_case : Forall (wf 64) [1; 2; 3; 1; 1; 1; 2; 3; 1; 3] /\ sfc_seed 1 2 3 1 1 <> sfc_seed 1 2 3 1 3.
Proof. split; [repeat constructor|]. vm_compute. discriminate. Qed.

(* ------------------------------------------------------------------- C27 *)
Theorem C27_sfc_cycles :
  forall n s, sf_ok s -> N.odd (sf_k s) = true -> N.iter n sfc_step s = s -> n mod 2 ^ 64 = 0.
Proof. exact sfc_return. Qed.
(* as documented: distinct seeds do not run into each other for 2^64 draws *)
Theorem C27_sfc_streams_apart :
  forall i j s t, sf_ok s -> sf_ok t -> N.odd (sf_k s) = true -> sf_w s = sf_w t -> i < 2 ^ 64 -> j < 2 ^ 64 ->
  s <> t -> N.iter i sfc_step s <> N.iter j sfc_step t.
Proof. intros i j s t Hs Ht K W Hi Hj Hne H. apply Hne. exact (proj2 (sfc_meet i j s t Hs Ht K W Hi Hj H)). Qed.
(* streams with different increments never meet at all *)
Theorem C27_sfc_increments_apart :
  forall i j s t, sf_k s <> sf_k t -> N.iter i sfc_step s <> N.iter j sfc_step t.
Proof. intros i j s t K H. apply K. now rewrite <- (sfc_iter_k i s), H, sfc_iter_k. Qed.
Example C27_sfc_case : sf_ok (Sfc 1 2 3 4 5) /\ N.odd (sf_k (Sfc 1 2 3 4 5)) = true /\ sf_w (Sfc 1 2 3 4 5) = sf_w (Sfc 9 8 7 4 3).
Proof. repeat split. Qed.
(* with an even increment the bound is lost: k = 0 is accepted, and the state
   with all words zero returns at once *)
Theorem C27_sfc_even_increment_refuted :
  exists s, sf_ok s /\ N.iter 1 sfc_step s = s.
Proof. exists (Sfc 0 0 0 0 0). split; [repeat split|reflexivity]. Qed.

(* ------------------------------------------------------------------- C56 *)
(* when the increment comes from the seed sequence it is odd *)
Theorem C56_sfc_generated_k_odd :
  forall w st b, sfc_seed_from w None st = Some b -> N.odd (sf_k (core b)) = true.
Proof.
  intros w st b. unfold sfc_seed_from.
  assert (K : forall s0 s1 s2 w' x, N.odd (sf_k (sfc_seed s0 s1 s2 w' (N.lor x 1))) = true).
  { intros s0 s1 s2 w' x. unfold sfc_seed. rewrite sfc_iter_k. cbn [sf_k]. rewrite <- N.bit0_odd, N.lor_spec. apply orb_true_r. }
  destruct st as [|s0 [|s1 [|s2 rest]]]; try discriminate. destruct w as [w|].
  - destruct rest as [|x r]; [discriminate|]. intros [= <-]. apply K.
  - destruct rest as [|w' [|x r]]; try discriminate. intros [= <-]. apply K.
Qed.
Theorem C56_sfc_odd_k_kept :
  forall w k st b, sfc_seed_from w (Some k) st = Some b -> sf_k (core b) = k.
Proof.
  intros w k st b. unfold sfc_seed_from. destruct st as [|s0 [|s1 [|s2 rest]]]; try discriminate.
  destruct w as [w|]; [|destruct rest as [|w' rest]; [discriminate|]]; intros [= <-]; exact (sfc_iter_k 12 _).
Qed.
(* "Must be odd, and if even, 1 is added": nothing is added *)
Theorem C56_sfc_even_k_made_odd_refuted :
  exists k st b, N.odd k = false /\ sfc_seed_from (Some 1) (Some k) st = Some b /\ N.odd (sf_k (core b)) = false.
Proof.
  exists 4, (words64 0 3). eexists. split; [reflexivity|]. split; [vm_compute; reflexivity|reflexivity].
Qed.
Example C56_sfc_case : exists b, sfc_seed_from None None (words64 1 5) = Some b /\ sf_k (core b) <> 1.
Proof. eexists. split; [vm_compute; reflexivity|discriminate]. Qed.

(* --------------------------------------------------------------- C18, C19 *)
Theorem C18_sfc_restores :
  forall s t, sfpy_ok s -> sfc_set (sfc_get s) t = (s, Ok tt).
Proof. exact sfc_set_get. Qed.
Example C18_sfc_case : sfpy_ok (ex_sfc true) /\ ex_sfc true <> ex_sfc false. Proof. split; [repeat split|discriminate]. Qed.
(* a is stored before b is looked at *)
Theorem C19_sfc_not_atomic_refuted : ~ atomic sfc_set.
Proof.
  intros A. specialize (A (PDict [("bit_generator", PStr "SFC64"); ("state", PDict [("a", PInt 5); ("b", PInt (-1))])]%string) (ex_sfc false)).
  revert A. vm_compute. intros A. specialize (A _ _ eq_refl). discriminate.
Qed.

(* ------------------------------------------------------------------- C22 *)
Theorem C22_sfc_halves :
  forall b, sf_ok (core b) -> has32 b = false ->
  let '(b1, lo) := b_next32 sfc_next b in
  let '(b2, hi) := b_next32 sfc_next b1 in
  let '(b3, v) := b_next64 sfc_next b in
  lo + 2 ^ 32 * hi = v /\ core b2 = core b3 /\ has32 b2 = false.
Proof. exact (two32_is_64 sfc_next sf_ok sfc_next_ok). Qed.
Theorem C22_sfc_any_order :
  forall rs b, sf_ok (core b) -> exists n,
  let '(a, vs) := raws sfc_next n (core b) in
  spec rs (queue b) vs = Some (queue (fst (run sfc_next rs b)), snd (run sfc_next rs b), []) /\ core (fst (run sfc_next rs b)) = a.
Proof. exact (run_spec sfc_next sf_ok sfc_next_ok). Qed.
Example C22_sfc_case : sf_ok (core (ex_sfc true)) /\ snd (run sfc_next [R32; R32; R64; R32] (ex_sfc true)) = [77; 7; 38; 0].
Proof. split; [repeat split|vm_compute; reflexivity]. Qed.

(* ------------------------------------------------------------------- C37 *)
(* strict integers: every value drawn by Generator.integers(0, total,
   endpoint=True) is below total, i.e. the end point does not come up. Then
   weyl_increments returns what it promises whenever it returns. *)
Theorem C37_weyl_increments_partial :
  forall integers fuel n max_bits min_bits b l b', strict integers -> sf_ok (core b) ->
  weyl_increments integers fuel n max_bits min_bits b = Ok (Some (l, b')) ->
  Z.of_nat (List.length l) = n /\ NoDup l /\
  Forall (fun x => wf 64 x /\ N.odd x = true /\ (match min_bits with Some m => m | None => max_bits end <= Z.of_N (nbits x) <= max_bits)%Z) l.
Proof. exact weyl_increments_spec. Qed.
(* a uniform draw from a 64-bit word as an instance *)
Definition ex_integers (t : N) (b : sfcpy) : N * sfcpy := let '(s, v) := sfc_next (core b) in (v mod t, set_core s b).
Example C37_strict_case : strict ex_integers.
Proof.
  intros t b H Ht. unfold ex_integers. pose proof (sfc_next_ok (core b) H) as [A _]. destruct (sfc_next (core b)) as [s v]. split; [|exact A].
  apply N.mod_lt. intros ->. now apply N.lt_irrefl in Ht.
Qed.
Example C37_case : exists l b', weyl_increments ex_integers 200 5 4 (Some 2%Z) (ex_sfc false) = Ok (Some (l, b')) /\ NoDup l /\ List.length l = 5%nat.
Proof.
  eexists. eexists. split; [vm_compute; reflexivity|]. split; [|reflexivity]. repeat constructor; cbn; intuition discriminate.
Qed.
(* The end point is a possible draw. It selects no class, and the value 1 is
   returned whatever number of bits was asked for; *)
Theorem C37_weyl_end_point_refuted :
  exists integers l b', (forall t b, fst (integers t b) <= t)
  /\ weyl_increments integers 200 1 32 None (ex_sfc false) = Ok (Some (l, b')) /\ Forall (fun x => nbits x <> 32) l.
Proof.
  exists (fun t b => (t, b)). eexists. eexists. split; [intros t b; apply N.le_refl|]. split; [vm_compute; reflexivity|].
  constructor; [vm_compute; discriminate|constructor].
Qed.
(* when it comes up a second time the value 1 is refused again and again: the
   call does not return, whatever the number of rounds allowed *)
Theorem C37_weyl_terminates_refuted :
  exists integers, (forall t b, fst (integers t b) <= t)
  /\ forall fuel, weyl_increments integers fuel 2 32 None (ex_sfc false) = Ok None.
Proof.
  exists (fun t b => (t, b)). split; [intros t b; apply N.le_refl|]. intros fuel. unfold weyl_increments.
  change (2 <? 1)%Z with false. change (negb ((1 <=? 32) && (32 <=? 64))%Z) with false. change (negb ((1 <=? 32) && (32 <=? 32))%Z) with false. cbv zeta. cbn iota.
  change (Z.of_N (available (bit_classes (Z.to_N 32) (Z.to_N 32))) <? 2)%Z with false. cbn iota. f_equal.
  change (Z.to_nat 2) with 2%nat. change (bit_classes (Z.to_N 32) (Z.to_N 32)) with [32].
  set (cum := cumulate 0 (map choosek [32])).
  assert (P : forall c, pick (last [c] 0) 0 [c] [32] = (0, [c])).
  { intros c. apply pick_total. constructor; [apply N.le_refl|constructor]. }
  assert (E : exists c, cum = [c]) by (eexists; reflexivity). destruct E as [c ->].
  assert (R0 : forall b, new_value (S (pred fuel)) (S (pred fuel)) 0 [] b = Some (1, set_core (core b) b)).
  { intros b. cbn [new_value]. now rewrite generate_bits_0. }
  assert (R : forall t b, new_value fuel t 0 [1] b = None).
  { induction t as [|t IH]; intros b; [reflexivity|]. cbn [new_value]. rewrite generate_bits_0. exact (IH _). }
  cbn [weyl_loop]. cbv beta iota. rewrite P. destruct fuel as [|fuel]; [reflexivity|]. cbn [pred] in R0. rewrite R0, P, R. reflexivity.
Qed.
(* The number of odd 64-bit values with k bits set is the number of ways to
   choose k - 1 of 63 positions, entry k - 1 of row 63 of Pascal's triangle. The
   code's count is right for k < 30 and k > 35; between, its product wraps and
   the count is too small, so that requests that could be met are refused. *)
Definition pascal (row : list N) : list N := map (fun '(x, y) => x + y) (combine (0 :: row) (row ++ [0])%list).
Definition ways (k : N) : N := nth (N.to_nat (k - 1)) (Nat.iter 63 pascal [1]) 0.
Theorem C37_counts_partial :
  forall k, 1 <= k <= 64 -> choosek k <= ways k /\ (choosek k = ways k <-> (k < 30 \/ 35 < k)).
Proof.
  intros k H. assert (A : forallb (fun k => (choosek k <=? ways k) && Bool.eqb (choosek k =? ways k) ((k <? 30) || (35 <? k))) (bit_classes 1 64) = true) by (vm_compute; reflexivity).
  rewrite forallb_forall in A. specialize (A k (proj2 (classes_in 1 64 k ltac:(discriminate)) H)). apply andb_prop in A. destruct A as [A B].
  apply Bool.eqb_prop in B. apply N.leb_le in A. split; [exact A|]. rewrite <- N.eqb_eq, B. rewrite orb_true_iff, !N.ltb_lt. reflexivity.
Qed.
Theorem C37_counts_refuted : exists k, 1 <= k <= 64 /\ choosek k <> ways k.
Proof. exists 32. split; [split; discriminate|vm_compute; discriminate]. Qed.
Example C37_counts_case : ways 3 = 1953 /\ choosek 3 = 1953. Proof. vm_compute. split; reflexivity. Qed.

Print Assumptions C24_sfc_never_merges.
Print Assumptions C25_sfc_seeds_distinct.
Print Assumptions C27_sfc_cycles.
Print Assumptions C27_sfc_streams_apart.
Print Assumptions C27_sfc_increments_apart.
Print Assumptions C27_sfc_even_increment_refuted.
Print Assumptions C56_sfc_generated_k_odd.
Print Assumptions C56_sfc_odd_k_kept.
Print Assumptions C56_sfc_even_k_made_odd_refuted.
Print Assumptions C18_sfc_restores.
Print Assumptions C19_sfc_not_atomic_refuted.
Print Assumptions C22_sfc_halves.
Print Assumptions C22_sfc_any_order.
Print Assumptions C37_weyl_increments_partial.
Print Assumptions C37_weyl_end_point_refuted.
Print Assumptions C37_weyl_terminates_refuted.
Print Assumptions C37_counts_partial.
Print Assumptions C37_counts_refuted.
