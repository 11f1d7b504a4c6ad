(* C78: over its full period every word occurs equally often.

   count P n: how many of 0, 1, ..., n - 1 satisfy P (Count.v). With Q an
   arbitrary set of output words, count (fun i => Q (value of draw i)) period is
   the number of draws in one period with a value in Q. *)
From Verif Require Import Word Finite Count Buffer32 Lcg Py Pcg PcgFacts PcgSeed LcgMixFacts PropOut.
From Coq Require Import String ZifyBool ZifyNat ZifyN.
Open Scope N_scope.
Ltac Zify.zify_post_hook ::= idtac.

(* ------------------------------------------------------------ congruential *)
Lemma iter_wf {A} (P : A -> Prop) f : (forall x, P x -> P (f x)) -> forall n x, P x -> P (N.iter n f x).
Proof. intros H n x Hx. induction n as [|n IH] using N.peano_ind; [exact Hx|]. rewrite N.iter_succ. now apply H. Qed.
Lemma lcg_count w a c s e P : a mod 4 = 1 -> N.odd c = true -> wf w s ->
  count (fun i => P (N.iter (i + e) (lcg_step w a c) s)) (2 ^ w) = count P (2 ^ w).
Proof.
  intros Ha Hc Hs. apply count_perm with (g := fun i => N.iter (i + e) (lcg_step w a c) s).
  - intros i _. apply (iter_wf (wf w)); [|exact Hs]. intros x _. apply wf_trunc.
  - intros i j Hi Hj E. apply (lcg_states_distinct w a c s) in E; [|assumption..].
    rewrite (N.add_comm i), (N.add_comm j) in E. 
    assert (N0 : 2 ^ w <> 0) by apply pow2_nz.
    rewrite <- (N.mod_small i (2 ^ w)), <- (N.mod_small j (2 ^ w)) by assumption.
    apply (f_equal Z.of_N) in E. apply N2Z.inj. rewrite !N2Z.inj_mod, !N2Z.inj_add in *.
    replace (Z.of_N i) with (Z.of_N e + Z.of_N i - Z.of_N e)%Z by lia. replace (Z.of_N j) with (Z.of_N e + Z.of_N j - Z.of_N e)%Z by lia.
    rewrite Zminus_mod, E, <- Zminus_mod. reflexivity.
Qed.
Lemma square_128 : 2 ^ 128 = 2 ^ 64 * 2 ^ 64. Proof. reflexivity. Qed.
Lemma halves f x : on_halves f x = f (x / 2 ^ 64) (x mod 2 ^ 64).
Proof. unfold on_halves, hi64, lo64, trunc. now rewrite N.shiftr_div_pow2. Qed.
Lemma halves_low f Q : (forall h l, h < 2 ^ 64 -> l < 2 ^ 64 -> f h l < 2 ^ 64) ->
  (forall h l m, h < 2 ^ 64 -> l < 2 ^ 64 -> m < 2 ^ 64 -> f h l = f h m -> l = m) ->
  count (fun x => Q (on_halves f x)) (2 ^ 128) = 2 ^ 64 * count Q (2 ^ 64).
Proof.
  intros Hb Hi. rewrite <- (count_low f Q _ _ Hb Hi), square_128. apply count_ext. intros x _. now rewrite halves.
Qed.
Lemma halves_high f Q : (forall h l, h < 2 ^ 64 -> l < 2 ^ 64 -> f h l < 2 ^ 64) ->
  (forall h k l, h < 2 ^ 64 -> k < 2 ^ 64 -> l < 2 ^ 64 -> f h l = f k l -> h = k) ->
  count (fun x => Q (on_halves f x)) (2 ^ 128) = 2 ^ 64 * count Q (2 ^ 64).
Proof.
  intros Hb Hi. rewrite <- (count_high f Q _ _ Hb Hi), square_128. apply count_ext. intros x _. now rewrite halves.
Qed.
Lemma xsl_rr_count Q : count (fun x => Q (on_halves out_xsl_rr x)) (2 ^ 128) = 2 ^ 64 * count Q (2 ^ 64).
Proof.
  apply halves_low.
  - intros h l Hh Hl. apply pcg_rotr_64_wf; [now apply wf_lxor|now apply high6].
  - intros h l m Hh Hl Hm E. destruct (C49_xsl_rr_bijective h (out_xsl_rr h l) Hh) as (x & _ & _ & U).
    + apply pcg_rotr_64_wf; [now apply wf_lxor|now apply high6].
    + rewrite (U l Hl eq_refl), (U m Hm (eq_sym E)). reflexivity.
Qed.
Lemma dxsm_count m Q : N.odd m = true -> count (fun x => Q (on_halves (out_dxsm m) x)) (2 ^ 128) = 2 ^ 64 * count Q (2 ^ 64).
Proof.
  intros Hm. apply halves_high.
  - intros h l Hh Hl. apply wf_wmul.
  - intros h k l Hh Hk Hl E. destruct (C49_dxsm_bijective m l (out_dxsm m h l) Hm Hl) as (x & _ & _ & U); [apply wf_wmul|].
    rewrite (U h Hh eq_refl), (U k Hk (eq_sym E)). reflexivity.
Qed.
Lemma murmur3_count Q : count (fun x => Q (on_halves out_murmur3 x)) (2 ^ 128) = 2 ^ 64 * count Q (2 ^ 64).
Proof.
  apply halves_high.
  - intros h l Hh Hl. apply wf_lxor; auto using wf_shr, wf_wmul.
  - intros h k l Hh Hk Hl. now apply C49_murmur3_injective.
Qed.

(* the value of draw i *)
Definition pcg64_value (s : pcg64) (i : N) : N := snd (pcg64_next64 (N.iter i pcg64_draw s)).
Definition pcg32_value (s : pcg32) (i : N) : N := snd (pcg32_next32 (N.iter i pcg32_draw s)).
Definition lcg_value cfun (s : lcgpy) (i : N) : N := snd (b_next64 (lcg_next cfun) (lb (N.iter i (lcg_draw cfun) s))).

Lemma iter_S {A} (f : A -> A) n x : f (N.iter n f x) = N.iter (n + 1) f x.
Proof. now rewrite N.add_1_r, N.iter_succ. Qed.
(* PCG64 (all variants) and PCG64DXSM: among the 2^128 values of a period, the
   number of values in Q is 2^64 times the number of words in Q *)
Theorem C78_pcg64_equidistributed :
  forall s Q, pcg64_wf s -> N.odd (p_inc (core s)) = true ->
  count (fun i => Q (pcg64_value s i)) (2 ^ 128) = 2 ^ 64 * count Q (2 ^ 64).
Proof.
  intros [[st inc v] h u] Q (Hs & Hi & _) Ho. cbn [core p_state p_inc] in *.
  assert (A : forall e, count (fun i => Q (on_halves (match v with XslRr => out_xsl_rr | _ => out_dxsm PCG_CHEAP_MULT end)
                                           (N.iter (i + e) (lcg_step 128 (p64_mult v) inc) st))) (2 ^ 128) = 2 ^ 64 * count Q (2 ^ 64)).
  { intros e. rewrite (lcg_count 128 _ _ _ e (fun x => Q (on_halves (match v with XslRr => out_xsl_rr | _ => out_dxsm PCG_CHEAP_MULT end) x)));
      [|destruct v; reflexivity|exact Ho|exact Hs].
    destruct v; [apply xsl_rr_count|apply dxsm_count; reflexivity..]. }
  rewrite <- (A (match v with CmDxsm => 0 | _ => 1 end)). apply count_ext. intros i _. f_equal.
  unfold pcg64_value. rewrite pcg64_draws. unfold pcg64_next64, b_next64, p64_next. cbn [core has32 u32 p_var p_state p_inc p64_step].
  destruct v; cbn [snd p_state p64_mult]; rewrite ?iter_S, ?N.add_0_r; reflexivity.
Qed.
Theorem C78_pcg64_each_word :
  forall s v, pcg64_wf s -> N.odd (p_inc (core s)) = true -> v < 2 ^ 64 -> count (fun i => pcg64_value s i =? v) (2 ^ 128) = 2 ^ 64.
Proof.
  intros s v Hs Ho Hv. rewrite (C78_pcg64_equidistributed s (fun x => x =? v) Hs Ho), count_eqb by exact Hv. apply N.mul_1_r.
Qed.
(* random() returns (value >> 11) / 2^53: each double k / 2^53 comes up equally often *)
Lemma count_shr B A k : B <> 0 -> k < A -> count (fun x => x / B =? k) (A * B) = B.
Proof.
  intros HB Hk. rewrite (count_high (fun h _ => h) (fun h => h =? k)) by auto. rewrite count_eqb by exact Hk. apply N.mul_1_r.
Qed.
Lemma double_words k : k < 2 ^ 53 -> count (fun x => N.shiftr x 11 =? k) (2 ^ 64) = 2 ^ 11.
Proof.
  intros Hk. rewrite <- (count_shr (2 ^ 11) (2 ^ 53) k) by (assumption || discriminate).
  change (2 ^ 64) with (2 ^ 53 * 2 ^ 11). apply count_ext. intros x _. now rewrite N.shiftr_div_pow2.
Qed.
Theorem C78_pcg64_each_double :
  forall s k, pcg64_wf s -> N.odd (p_inc (core s)) = true -> k < 2 ^ 53 -> count (fun i => N.shiftr (pcg64_value s i) 11 =? k) (2 ^ 128) = 2 ^ 75.
Proof.
  intros s k Hs Ho Hk. rewrite (C78_pcg64_equidistributed s (fun x => N.shiftr x 11 =? k) Hs Ho), double_words by exact Hk. reflexivity.
Qed.

(* PCG32: a state is its top 5 bits, 32 bits in the middle and 27 low bits *)
Definition mid_perm (x : N) : N := (x / 2 ^ 32) / 2 ^ 27 * 2 ^ 59 + x mod 2 ^ 32 * 2 ^ 27 + (x / 2 ^ 32) mod 2 ^ 27.
Lemma mid_parts h l : h < 2 ^ 32 -> l < 2 ^ 32 -> let s := h / 2 ^ 27 * 2 ^ 59 + l * 2 ^ 27 + h mod 2 ^ 27 in
  s < 2 ^ 64 /\ s / 2 ^ 59 = h / 2 ^ 27 /\ s mod 2 ^ 27 = h mod 2 ^ 27 /\ (s / 2 ^ 27) mod 2 ^ 32 = l.
Proof.
  intros Hh Hl. assert (T : h / 2 ^ 27 < 2 ^ 5) by (apply N.div_lt_upper_bound; [discriminate|exact Hh]).
  pose proof (N.mod_lt h (2 ^ 27) ltac:(discriminate)) as L. set (t := h / 2 ^ 27) in *. set (b := h mod 2 ^ 27) in *. clearbody t b. cbn zeta.
  assert (E27 : (t * 2 ^ 59 + l * 2 ^ 27 + b) / 2 ^ 27 = t * 2 ^ 32 + l).
  { symmetry. apply (N.div_unique _ _ _ b L). change (2 ^ 59) with (2 ^ 32 * 2 ^ 27). lia. }
  split; [lia|]. split; [symmetry; apply (N.div_unique _ _ _ (l * 2 ^ 27 + b)); lia|]. split.
  - symmetry. apply (N.mod_unique _ _ (t * 2 ^ 32 + l) b L). change (2 ^ 59) with (2 ^ 32 * 2 ^ 27). lia.
  - rewrite E27. symmetry. apply (N.mod_unique _ _ t l Hl). lia.
Qed.
Lemma square_64 : 2 ^ 64 = 2 ^ 32 * 2 ^ 32. Proof. reflexivity. Qed.
Lemma digits32 x : x < 2 ^ 64 -> x / 2 ^ 32 < 2 ^ 32 /\ x mod 2 ^ 32 < 2 ^ 32.
Proof. intros H. split; [apply N.div_lt_upper_bound; [discriminate|exact H]|apply N.mod_lt; discriminate]. Qed.
Lemma xsh_rr_wf s : s < 2 ^ 64 -> xsh_rr s < 2 ^ 32.
Proof.
  intros Hs. unfold xsh_rr. assert (R : N.shiftr s 59 < 32) by (rewrite N.shiftr_div_pow2; apply N.div_lt_upper_bound; [discriminate|exact Hs]).
  rewrite C49_pcg_rotr_32 by (apply wf_trunc || exact R). destruct (_ =? 0); [apply wf_trunc|]. apply wf_rotr, wf_trunc.
Qed.
Lemma xsh_rr_count Q : count (fun x => Q (xsh_rr x)) (2 ^ 64) = 2 ^ 32 * count Q (2 ^ 32).
Proof.
  rewrite <- (count_perm mid_perm).
  - rewrite <- (count_low (fun h l => xsh_rr (h / 2 ^ 27 * 2 ^ 59 + l * 2 ^ 27 + h mod 2 ^ 27)) Q).
    + rewrite square_64. reflexivity.
    + intros h l Hh Hl. now apply xsh_rr_wf, mid_parts.
    + intros h l m Hh Hl Hm E. destruct (mid_parts h l Hh Hl) as (A1 & A2 & A3 & A4). destruct (mid_parts h m Hh Hm) as (B1 & B2 & B3 & B4).
      rewrite <- A4, <- B4. f_equal. f_equal. apply C49_xsh_rr_injective; [exact A1|exact B1| |now rewrite A3, B3|exact E].
      rewrite !N.shiftr_div_pow2. now rewrite A2, B2.
  - intros x Hx. destruct (digits32 x Hx) as [D1 D2]. exact (proj1 (mid_parts _ _ D1 D2)).
  - intros x y Hx Hy E. destruct (digits32 x Hx) as [D1 D2]. destruct (digits32 y Hy) as [F1 F2].
    destruct (mid_parts _ _ D1 D2) as (_ & A2 & A3 & A4). destruct (mid_parts _ _ F1 F2) as (_ & B2 & B3 & B4).
    unfold mid_perm in E. rewrite E in A2, A3, A4. rewrite B2 in A2. rewrite B3 in A3. rewrite B4 in A4.
    rewrite (N.div_mod x (2 ^ 32)), (N.div_mod y (2 ^ 32)) by discriminate. rewrite A4. f_equal. f_equal.
    rewrite (N.div_mod (x / 2 ^ 32) (2 ^ 27)), (N.div_mod (y / 2 ^ 32) (2 ^ 27)) by discriminate. now rewrite A2, A3.
Qed.
Theorem C78_pcg32_equidistributed :
  forall s Q, pcg32_wf s -> N.odd (p32_inc s) = true -> count (fun i => Q (pcg32_value s i)) (2 ^ 64) = 2 ^ 32 * count Q (2 ^ 32).
Proof.
  intros [st inc] Q [Hs Hi] Ho. cbn [p32_state p32_inc] in *.
  rewrite <- xsh_rr_count, <- (lcg_count 64 PCG_MULT64 inc st 0 (fun x => Q (xsh_rr x))) by (reflexivity || assumption).
  apply count_ext. intros i _. unfold pcg32_value. rewrite pcg32_draws, N.add_0_r. reflexivity.
Qed.
Theorem C78_pcg32_each_word :
  forall s v, pcg32_wf s -> N.odd (p32_inc s) = true -> v < 2 ^ 32 -> count (fun i => pcg32_value s i =? v) (2 ^ 64) = 2 ^ 32.
Proof.
  intros s v Hs Ho Hv. rewrite (C78_pcg32_equidistributed s (fun x => x =? v) Hs Ho), count_eqb by exact Hv. apply N.mul_1_r.
Qed.

(* LCG128Mix with each of its five built-in output functions; the dxsm multiplier
   must be odd, which the class does not insist on for a state dictionary *)
Theorem C78_lcg128mix_equidistributed :
  forall cfun s Q, lcg_wf s -> l_mult (core (lb s)) mod 4 = 1 -> N.odd (l_inc (core (lb s))) = true ->
  (0 <= l_out (core (lb s)) <= 4)%Z -> (l_out (core (lb s)) = 1%Z -> N.odd (l_dxsm (core (lb s))) = true) ->
  count (fun i => Q (lcg_value cfun s i)) (2 ^ 128) = 2 ^ 64 * count Q (2 ^ 64).
Proof.
  intros cfun [[[st inc mu dm po o f] h u] pm cf] Q (Hs & _) Hm Hi Hr Hd. cbn [lb core l_mult l_inc l_out l_dxsm l_state] in *.
  set (c0 := LC 0 inc mu dm po o f).
  assert (B : count (fun x => Q (lcg_output cfun c0 x)) (2 ^ 128) = 2 ^ 64 * count Q (2 ^ 64)).
  { assert (o = 0 \/ o = 1 \/ o = 2 \/ o = 3 \/ o = 4)%Z as [-> |[-> |[-> |[-> | ->]]]] by (clear -Hr; lia); cbn [c0 lcg_output l_out l_dxsm].
    - exact (xsl_rr_count Q).
    - exact (dxsm_count dm Q (Hd eq_refl)).
    - exact (murmur3_count Q).
    - apply (halves_high out_upper); auto.
    - apply (halves_low out_lower); auto. }
  rewrite <- B, <- (lcg_count 128 mu inc st (if po then 1 else 0) (fun x => Q (lcg_output cfun c0 x))) by assumption.
  apply count_ext. intros i _. f_equal. unfold lcg_value. rewrite lcg_draws. cbn [lb core has32 u32 l_mult l_inc l_state l_dxsm l_post l_out l_func].
  unfold b_next64, lcg_next. cbn [core lcg_step1 l_mult l_inc l_state l_dxsm l_post l_out l_func].
  destruct po; cbn [snd]; rewrite ?iter_S, ?N.add_0_r; reflexivity.
Qed.
Example C78_pcg_case : pcg64_wf (pcg64_seed CmDxsm 5 7) /\ N.odd (p_inc (core (pcg64_seed CmDxsm 5 7))) = true /\
  pcg32_wf (pcg32_srandom 42 54) /\ N.odd (p32_inc (pcg32_srandom 42 54)) = true /\
  (let s := lcg_new PCG_DEFAULT_MULT 5 true (inl 2%Z) 10 20 in lcg_wf s /\ l_mult (core (lb s)) mod 4 = 1 /\ N.odd (l_inc (core (lb s))) = true /\ l_out (core (lb s)) = 2%Z) /\
  count (fun x => N.shiftr x 3 =? 1) 20 = 8.
Proof. vm_compute. repeat split; discriminate. Qed.

Print Assumptions C78_pcg64_equidistributed.
Print Assumptions C78_pcg64_each_word.
Print Assumptions C78_pcg64_each_double.
Print Assumptions C78_pcg32_equidistributed.
Print Assumptions C78_pcg32_each_word.
Print Assumptions C78_lcg128mix_equidistributed.
