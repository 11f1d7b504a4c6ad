(* Properties of Squares and of generate_keys.

   sq_raw lr: one element of random_raw (lr: the order in which the compiler
   makes the two calls of squares_32_next64). draw: the state after it. gs n:
   the n 64-bit words the seed sequence's generate_state gives. Key digits are
   hexadecimal, digit 0 the least significant. *)
From Verif Require Import Word Arr Buffer32 Py Half MultiWord Squares SquaresFacts SeedSeq.
From Coq Require Import String ZifyBool ZifyNat ZifyN.
Open Scope N_scope.

Definition ex_sq (v64 h : bool) : sqpy := Buf (SQ 0x548c9decbce65297 (2 ^ 64 - 3) v64) h 77.
(* the seed sequence SeedSequence(1234) *)
Definition gs1234 (n : N) : list N := match ss_pool (SS (SInt 1234) [] 4 0) with Some p => generate64 (N.to_nat n) p | None => [] end.

(* ------------------------------------------------------------------- C09 *)
(* 64-bit variant: advance(delta) is delta raw draws (the half is dropped) *)
Theorem C09_squares64_advance :
  forall lr delta b, sq_wf b -> sq_v64 (core b) = true ->
  sq_advance delta b = reset32 (N.iter delta (draw (sq_raw_core lr)) b).
Proof.
  intros lr delta b [_ H] V. rewrite draws_core. unfold sq_advance, reset32. cbn [core]. rewrite sq_raws_ctr by exact H. unfold sq_at. rewrite V, N.mul_1_r. reflexivity.
Qed.
Theorem C09_squares_advance_adds :
  forall a d b, sq_advance a (sq_advance d b) = sq_advance ((a + d) mod 2 ^ 64) b.
Proof.
  intros a d b. unfold sq_advance, reset32. cbn [core has32 u32 sq_key sq_ctr sq_v64]. f_equal. f_equal. unfold wadd.
  rewrite N.add_mod_idemp_l, N.add_mod_idemp_r by apply pow2_nz. f_equal. clear. lia.
Qed.
(* 32-bit variant: advance counts 32-bit draws, a raw draw is two of them *)
Theorem C09_squares32_advance_partial :
  forall lr delta b, sq_wf b -> sq_v64 (core b) = false ->
  sq_advance (2 * delta) b = reset32 (N.iter delta (draw (sq_raw_core lr)) b)
  /\ sq_advance delta b = reset32 (N.iter delta (fun b => fst (sq_next32 b)) b).
Proof.
  intros lr delta b [_ H] V. split.
  - rewrite draws_core. unfold sq_advance, reset32. cbn [core]. rewrite sq_raws_ctr by exact H. unfold sq_at. rewrite V, (N.mul_comm delta). reflexivity.
  - assert (E : N.iter delta (fun b => fst (sq_next32 b)) b = Buf (N.iter delta sq_incr (core b)) (has32 b) (u32 b)).
    { assert (Vn : forall n, sq_v64 (N.iter n sq_incr (core b)) = false).
      { intros n. apply Niter_inv; [intros s Hs; exact Hs|exact V]. }
      clear H. induction delta as [|n IH] using N.peano_ind; [now destruct b|]. rewrite !N.iter_succ, IH. unfold sq_next32. cbn [core]. rewrite Vn. reflexivity. }
    rewrite E, iter_incr by exact H. reflexivity.
Qed.
(* so advance(1) is not one raw draw there: the next raw value differs *)
Theorem C09_squares32_advance_refuted :
  exists b, sq_wf b /\ sq_v64 (core b) = false
  /\ snd (sq_raw true (sq_advance 1 b)) <> snd (sq_raw true (reset32 (draw (sq_raw_core true) b)))
  /\ snd (sq_raw false (sq_advance 1 b)) <> snd (sq_raw false (reset32 (draw (sq_raw_core false) b))).
Proof.
  exists (ex_sq false false). split; [split; reflexivity|]. split; [reflexivity|]. split; vm_compute; discriminate.
Qed.
Example C09_case : sq_wf (ex_sq true true) /\ sq_ctr (core (sq_advance 5 (ex_sq true true))) = 2.
Proof. split; [split; reflexivity|vm_compute; reflexivity]. Qed.
(* the counter is used only through counter * key: with an odd key (which every
   key checked or generated is) distinct counters give distinct products *)
Theorem C09_squares_counters_distinct :
  forall key a b, N.odd key = true -> wf 64 a -> wf 64 b -> wmul 64 a key = wmul 64 b key -> a = b.
Proof. intros key a b Ho Ha Hb. rewrite !(wmul_comm 64 _ key). now apply odd_mul_inj. Qed.

(* ------------------------------------------------------------------- C38 *)
(* every key returned is odd, has eight different low digits, and each of its
   high digits is nonzero and differs from the digit below it; keys are distinct
   when asked for *)
Theorem C38_keys_valid :
  forall gs fuel n unique l, generate_keys gs fuel n unique = Some (Val l) ->
  Z.of_nat (List.length l) = n
  /\ Forall (fun key => key < 2 ^ 64 /\ N.odd key = true /\ NoDup (firstn 8 (to_words 4 16 key))
       /\ forall j, (8 <= j < 16)%nat -> nth j (to_words 4 16 key) 0 <> 0 /\ nth j (to_words 4 16 key) 0 <> nth (j - 1) (to_words 4 16 key) 0) l
  /\ (unique = true -> NoDup l).
Proof. exact generate_keys_valid. Qed.
Theorem C38_seeded_key_valid :
  forall gs fuel key, key_from_seq gs fuel = Val key -> valid_key key.
Proof.
  intros gs fuel key. unfold key_from_seq. destruct (sampler_new gs 10) as [s|]; [|discriminate].
  destruct (generate_key gs (fuel, s)) as [[k st]| |] eqn:E; try discriminate. intros [= <-]. exact (generate_key_valid _ _ _ _ E).
Qed.
(* the keys printed in the documentation of generate_keys, squares.pyx:242-257 *)
Example C38_documented_keys : generate_keys gs1234 200 5 false
  = Some (Val [0x836cdc3a1af658b7; 0xa39cdc865e62a037; 0x98d91d71e39a4c2f; 0x648f732e50f1b74d; 0x18c589d6d5fa72c1]).
Proof. vm_compute. reflexivity. Qed.
Example C38_unique_case : exists l, generate_keys gs1234 800 5 true = Some (Val l) /\ List.length l = 5%nat.
Proof. eexists. split; [vm_compute; reflexivity|reflexivity]. Qed.
(* the documented rule that the low digits come from 1..15 does not hold: the
   second documented key has the digit 0 *)
Theorem C38_no_zero_digit_refuted :
  exists fuel l, generate_keys gs1234 fuel 5 false = Some (Val l) /\ Exists (fun key => In 0 (to_words 4 16 key)) l.
Proof.
  exists 200%nat. eexists. split; [exact C38_documented_keys|]. apply Exists_cons_tl, Exists_cons_hd. vm_compute. tauto.
Qed.
(* memory: the 10 n words drawn first serve 160 n calls of gen_bits, so nothing
   outside them is read while no more than 160 n calls are made *)
Theorem C38_sampler_safe_partial :
  forall gs fuel n unique, (forall k, N.of_nat (List.length (gs k)) = k) -> (Z.of_nat fuel <= 160 * n)%Z ->
  generate_keys gs fuel n unique <> Some Oob.
Proof. exact generate_keys_safe. Qed.
Theorem C38_seed_sampler_safe_partial :
  forall gs fuel, N.of_nat (List.length (gs 10)) = 10 -> (fuel <= 160)%nat -> key_from_seq gs fuel <> Oob.
Proof. exact key_from_seq_safe. Qed.
Example C38_safe_case : N.of_nat (List.length (gs1234 10)) = 10 /\ exists key, key_from_seq gs1234 160 = Val key /\ key <> 0.
Proof. split; [vm_compute; reflexivity|]. eexists. split; [vm_compute; reflexivity|discriminate]. Qed.
(* beyond that refill reads random_well[randoms_drawm], one past the end, before
   it draws more words: with a seed sequence that gives low digits which are
   always rejected *)
Theorem C38_sampler_overrun_refuted :
  exists gs fuel, (forall k, N.of_nat (List.length (gs k)) = k) /\ generate_keys gs fuel 1 false = Some Oob.
Proof.
  exists (fun k => repeat 0 (N.to_nat k)), 200%nat. split; [intros k; rewrite repeat_length; apply N2Nat.id|vm_compute; reflexivity].
Qed.

(* ------------------------------------------------------------------- C17 *)
(* jumped adds iter times the step to the counter; jumps add up *)
Theorem C17_squares_jumped :
  forall fresh n b, sq_wf b -> (0 < n)%Z ->
  sq_jumped fresh n b = Some (Buf (SQ (sq_key (core b)) (wadd 64 (sq_ctr (core b)) (Z.to_N n * sq_step)) (sq_v64 (core b))) false 0).
Proof. exact sq_jumped_spec. Qed.
Theorem C17_squares_jumps_add :
  forall f1 f2 f3 m n b c, sq_wf b -> (0 < m)%Z -> (0 < n)%Z ->
  sq_jumped f1 m b = Some c -> sq_jumped f2 n c = sq_jumped f3 (m + n) b.
Proof.
  intros f1 f2 f3 m n b c H Hm Hn. rewrite sq_jumped_spec by assumption. intros [= <-].
  rewrite sq_jumped_spec; [|now apply sq_jumped_wf|exact Hn]. rewrite sq_jumped_spec; [|exact H|clear - Hm Hn; lia].
  unfold sq_at. cbn [core sq_key sq_ctr sq_v64]. do 3 f_equal. unfold wadd. rewrite N.add_mod_idemp_l by apply pow2_nz. f_equal.
  rewrite Z2N.inj_add by (clear - Hm Hn; lia). clear. lia.
Qed.
(* a jump is sq_step raw draws of the 64-bit variant *)
Theorem C55_squares_jump_length :
  forall lr fresh n b, sq_wf b -> sq_v64 (core b) = true -> (0 < n)%Z ->
  sq_jumped fresh n b = Some (reset32 (N.iter (Z.to_N n * 11400714819323198485) (draw (sq_raw_core lr)) b)).
Proof.
  intros lr fresh n b H V Hn. rewrite sq_jumped_spec by assumption. rewrite draws_core. unfold reset32. cbn [core].
  rewrite sq_raws_ctr by exact (proj2 H). unfold sq_at. rewrite V, N.mul_1_r. reflexivity.
Qed.
(* the documentation says 2**(64 * iter) draws, which would not move the 64-bit
   counter at all; jumped(1) does move it *)
Theorem C55_squares_documented_jump_refuted :
  exists fresh b c, sq_wf b /\ sq_jumped fresh 1 b = Some c /\ sq_ctr (core c) <> (sq_ctr (core b) + 2 ^ 64) mod 2 ^ 64.
Proof.
  exists (ex_sq true false), (ex_sq true false). eexists. split; [split; reflexivity|]. split; [vm_compute; reflexivity|]. vm_compute. discriminate.
Qed.

(* ------------------------------------------------------------------- C18 *)
(* the setter restores key, counter and variant, and leaves the buffered half of
   the generator it is applied to *)
Theorem C18_squares_restores_partial :
  forall s t, sq_wf s -> sq_set (sq_get s) t = (Buf (core s) (has32 t) (u32 t), Ok tt).
Proof. exact sq_set_get. Qed.
(* so a saved state with a half is not restored: the next 32-bit draw differs *)
Theorem C18_squares_half_refuted :
  exists s t, sq_wf s /\ sq_wf t /\ snd (sq_set (sq_get s) t) = Ok tt /\ snd (sq_next32 (fst (sq_set (sq_get s) t))) <> snd (sq_next32 s).
Proof.
  exists (ex_sq true true), (ex_sq true false). split; [split; reflexivity|]. split; [split; reflexivity|]. split; [vm_compute; reflexivity|]. vm_compute. discriminate.
Qed.
Example C18_squares_case : sq_wf (ex_sq true true) /\ sq_wf (ex_sq false false).
Proof. split; split; reflexivity. Qed.

(* ------------------------------------------------------------------- C19 *)
(* key and counter are stored before the variant is checked *)
Theorem C19_squares_not_atomic_refuted : ~ atomic sq_set.
Proof.
  intros A. specialize (A (PDict [("bit_generator", PStr "Squares"); ("state", PDict [("key", PInt 5); ("counter", PInt 6)]); ("variant", PInt 16)]%string) (ex_sq true false)).
  revert A. vm_compute. intros A. specialize (A _ _ eq_refl). discriminate.
Qed.

(* ------------------------------------------------------------------- C21 *)
(* seeding forgets everything *)
Theorem C21_squares_reseed :
  forall key counter v64 a b, sq_seed key counter v64 a = sq_seed key counter v64 b.
Proof. reflexivity. Qed.

(* ------------------------------------------------------------------- C22 *)
Theorem C22_squares64_halves :
  forall b, has32 b = false ->
  let '(b1, lo) := b_next32 squares64 b in
  let '(b2, hi) := b_next32 squares64 b1 in
  let '(b3, v) := b_next64 squares64 b in
  lo + 2 ^ 32 * hi = v /\ core b2 = core b3 /\ has32 b2 = false.
Proof. intros b H. apply (two32_is_64 squares64 (fun _ => True)); [|exact I|exact H]. intros a _. split; [exact I|apply squares64_wf]. Qed.
Theorem C22_squares64_any_order :
  forall rs b, exists n,
  let '(a', vs) := raws squares64 n (core b) in
  spec rs (queue b) vs = Some (queue (fst (run squares64 rs b)), snd (run squares64 rs b), [])
  /\ core (fst (run squares64 rs b)) = a'.
Proof. intros rs b. apply (run_spec squares64 (fun _ => True)); [|exact I]. intros a _. split; [exact I|apply squares64_wf]. Qed.

(* ------------------------------------------------------------------- C24 *)
Theorem C24_squares_never_merges :
  forall lr n a b, sq_wf a -> sq_wf b -> N.iter n (draw (sq_raw_core lr)) a = N.iter n (draw (sq_raw_core lr)) b -> a = b.
Proof.
  intros lr n a b [_ Ha] [_ Hb]. rewrite !draws_core. rewrite !sq_raws_ctr by assumption. destruct a as [[k c v] h u], b as [[k' c' v'] h' u'].
  cbn [core has32 u32 sq_ctr sq_v64 sq_at] in *. unfold sq_at. cbn [sq_key sq_v64]. intros E. injection E as -> Ec -> -> ->. apply wadd_inj_r in Ec; [|assumption|assumption]. now subst.
Qed.

(* ------------------------------------------------------------------- C54 *)
(* the 64-bit values of the 32-bit variant depend on the compiler *)
Theorem C54_squares32_order_dependent_refuted :
  exists b, sq_wf b /\ sq_v64 (core b) = false /\ snd (sq_raw true b) <> snd (sq_raw false b).
Proof. exists (ex_sq false false). split; [split; reflexivity|]. split; [reflexivity|]. vm_compute. discriminate. Qed.
Theorem C54_squares64_order_free : forall b, sq_v64 (core b) = true -> sq_raw true b = sq_raw false b.
Proof. intros b V. unfold sq_raw, b_next64, sq_raw_core. now rewrite V. Qed.

Print Assumptions C09_squares64_advance.
Print Assumptions C09_squares_advance_adds.
Print Assumptions C09_squares32_advance_partial.
Print Assumptions C09_squares32_advance_refuted.
Print Assumptions C09_squares_counters_distinct.
Print Assumptions C38_keys_valid.
Print Assumptions C38_seeded_key_valid.
Print Assumptions C38_no_zero_digit_refuted.
Print Assumptions C38_sampler_safe_partial.
Print Assumptions C38_seed_sampler_safe_partial.
Print Assumptions C38_sampler_overrun_refuted.
Print Assumptions C17_squares_jumped.
Print Assumptions C17_squares_jumps_add.
Print Assumptions C55_squares_jump_length.
Print Assumptions C55_squares_documented_jump_refuted.
Print Assumptions C18_squares_restores_partial.
Print Assumptions C18_squares_half_refuted.
Print Assumptions C19_squares_not_atomic_refuted.
Print Assumptions C21_squares_reseed.
Print Assumptions C22_squares64_halves.
Print Assumptions C22_squares64_any_order.
Print Assumptions C24_squares_never_merges.
Print Assumptions C54_squares32_order_dependent_refuted.
Print Assumptions C54_squares64_order_free.
