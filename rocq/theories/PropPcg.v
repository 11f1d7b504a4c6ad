(* Properties of PCG32, PCG64, PCG64DXSM and LCG128Mix.

   One draw is pcg64_draw / pcg32_draw / lcg_draw: the state after one call of
   next_uint64 (next_uint32 for PCG32), i.e. what one element of random_raw
   costs. reset32 drops the half-word buffer, nothing else. *)
From Verif Require Import Word Common Buffer32 Lcg Py Pcg PcgFacts LcgMixFacts PcgSeed Emul128.
From Coq Require Import String.
Open Scope N_scope.

(* ------------------------------------------------------------------ C01 *)
(* advance(n), n >= 0 of any size, equals n draws (and empties the buffer) *)
Theorem C01_pcg64_advance_is_draws :
  forall n s, pcg64_wf s -> pcg64_advance (Z.of_N n) s = reset32 (N.iter n pcg64_draw s).
Proof. exact pcg64_advance_nat. Qed.
(* any integer, including negative ones: taken modulo the period 2^128 *)
Theorem C01_pcg64_advance_any_int :
  forall (d : Z) s, pcg64_wf s ->
  pcg64_advance d s = reset32 (N.iter (Z.to_N (d mod 2 ^ 128)) pcg64_draw s).
Proof. exact pcg64_advance_draws. Qed.
Theorem C01_pcg64_advance_negative_undoes_draws :
  forall n s, pcg64_wf s -> pcg64_advance (- Z.of_N n) (N.iter n pcg64_draw s) = reset32 s.
Proof. exact pcg64_advance_neg. Qed.
Theorem C01_pcg64_advance_composes :
  forall a b s, pcg64_wf s -> pcg64_advance b (pcg64_advance a s) = pcg64_advance (a + b) s.
Proof. exact pcg64_advance_add. Qed.
(* LCG128Mix, with any multiplier (also an even one from a state dict), any
   increment and any user output function *)
Theorem C01_lcg128mix_advance_any_int :
  forall cfun (d : Z) s, lcg_wf s ->
  lcg_adv d s = lcg_reset (N.iter (Z.to_N (d mod 2 ^ 128)) (lcg_draw cfun) s).
Proof. exact lcg_adv_draws. Qed.
Theorem C01_lcg128mix_advance_composes :
  forall (cfun : N -> N -> N -> N) a b s, lcg_wf s -> N.odd (l_mult (core (lb s))) = true ->
  lcg_adv b (lcg_adv a s) = lcg_adv (a + b) s.
Proof. exact lcg_adv_add. Qed.
(* a concrete generator meeting the hypotheses, with a half-word buffered *)
Example C01_case :
  let s := Buf (P64 123456789012345678901234567890 987654321987654321 CmDxsm) true 77 in
  pcg64_wf s /\ pcg64_advance (-5) s <> s /\
  pcg64_advance 3 s = reset32 (pcg64_draw (pcg64_draw (pcg64_draw s))).
Proof. vm_compute. repeat split; discriminate. Qed.
Example C01_lcg_case :
  lcg_wf (lcg_new 3 5 false (inl 2%Z) 10 20) /\ N.odd (l_mult (core (lb (lcg_new 3 5 false (inl 2%Z) 10 20)))) = true.
Proof. vm_compute. repeat split; reflexivity. Qed.

(* ------------------------------------------------------------------ C02 *)
Theorem C02_pcg32_advance_is_draws :
  forall n s, pcg32_wf s -> pcg32_advance (Z.of_N n) s = N.iter n pcg32_draw s.
Proof. exact pcg32_advance_nat. Qed.
Theorem C02_pcg32_advance_any_int :
  forall (d : Z) s, pcg32_wf s -> pcg32_advance d s = N.iter (Z.to_N (d mod 2 ^ 64)) pcg32_draw s.
Proof. exact pcg32_advance_draws. Qed.
Theorem C02_pcg32_advance_negative_undoes_draws :
  forall n s, pcg32_wf s -> pcg32_advance (- Z.of_N n) (N.iter n pcg32_draw s) = s.
Proof. exact pcg32_advance_neg. Qed.
Theorem C02_pcg32_advance_composes :
  forall a b s, pcg32_wf s -> pcg32_advance b (pcg32_advance a s) = pcg32_advance (a + b) s.
Proof. exact pcg32_advance_add. Qed.
Example C02_case :
  let s := pcg32_srandom 42 54 in
  pcg32_wf s /\ pcg32_advance 2 s = pcg32_draw (pcg32_draw s) /\ pcg32_advance (-1) s <> s.
Proof. vm_compute. repeat split; discriminate. Qed.

(* ------------------------------------------------------------------ C03 *)
(* the exact period of every seeded PCG64 is 2^128, of PCG32 2^64, and all
   states on the way are different *)
Theorem C03_pcg64_full_period :
  forall v initstate initseq i j,
  let s := pcg64_seed v initstate initseq in
  N.iter i pcg64_draw s = N.iter j pcg64_draw s <-> i mod 2 ^ 128 = j mod 2 ^ 128.
Proof. intros v a q i j s. apply pcg64_distinct; apply pcg64_seed_ok. Qed.
Theorem C03_pcg32_full_period :
  forall initstate initseq i j,
  let s := pcg32_srandom initstate initseq in
  N.iter i pcg32_draw s = N.iter j pcg32_draw s <-> i mod 2 ^ 64 = j mod 2 ^ 64.
Proof. intros a q i j s. apply pcg32_distinct; apply pcg32_seed_ok. Qed.
(* the same for a generator restored from any dictionary with an odd increment *)
Theorem C03_pcg64_full_period_odd_inc :
  forall s i j, pcg64_wf s -> N.odd (p_inc (core s)) = true ->
  (N.iter i pcg64_draw s = N.iter j pcg64_draw s <-> i mod 2 ^ 128 = j mod 2 ^ 128).
Proof. intros s i j. exact (pcg64_distinct i j s). Qed.
Example C03_case :
  let s := pcg64_seed XslRr 1 2 in
  N.odd (p_inc (core s)) = true /\ N.iter 3 pcg64_draw s <> N.iter 4 pcg64_draw s.
Proof. vm_compute. split; [reflexivity|discriminate]. Qed.
(* a state dictionary may hold an even increment: then the period can be 1 *)
Theorem C03_even_increment_refuted :
  exists s, pcg64_wf s /\ fst (pcg64_set (pcg64_get s) (pcg64_seed XslRr 0 0)) = s /\ pcg64_draw s = s.
Proof. exists (Buf (P64 0 0 XslRr) false 0). vm_compute. repeat split; reflexivity. Qed.

(* ------------------------------------------------------------------ C04 *)
Theorem C04_emulated_add : forall a b, ewf a -> ewf b -> val (e_add a b) = (val a + val b) mod 2 ^ 128.
Proof. exact e_add_val. Qed.
Theorem C04_emulated_mult : forall a b, ewf a -> ewf b -> val (e_mult a b) = (val a * val b) mod 2 ^ 128.
Proof. exact e_mult_val. Qed.
Theorem C04_emulated_mult64 : forall x y, wf 64 x -> wf 64 y ->
  fst (e_mult64 x y) * 2 ^ 64 + snd (e_mult64 x y) = x * y.
Proof. intros x y Hx Hy. exact (proj1 (e_mult64_val x y Hx Hy)). Qed.
(* the emulated advance terminates and computes what the native one does, that
   is, delta steps of s -> s*mult + plus mod 2^128 *)
Theorem C04_emulated_advance :
  forall state delta mult plus, ewf state -> ewf delta -> ewf mult -> ewf plus ->
  exists r, e_advance 128 state delta mult plus = Some r /\
            val r = N.iter (val delta) (fun x => (x * val mult + val plus) mod 2 ^ 128) (val state).
Proof.
  intros s d m p Hs Hd Hm Hp. destruct (e_advance_val s d m p Hs Hd Hm Hp) as (r & H1 & _ & H2).
  exists r. split; [exact H1|]. rewrite H2. apply lcg_advance_iter. now apply val_wf.
Qed.
(* two builds of the same version give the same stream from the same seed *)
Theorem C04_emulated_stream_is_native_stream :
  forall v a q n, ewf a -> ewf q ->
  e_outs n (e_init v a q) = n_outs n (p64_initialize v (val a) (val q)).
Proof.
  intros v a q n Ha Hq. destruct (e_init_native v a q Ha Hq) as [H1 H2].
  rewrite <- H1. now apply e_outs_native.
Qed.
Example C04_case :
  let a := (0xfedcba9876543210, 0xffffffffffffffff) in
  ewf a /\ e_mult a a = (0x2468acf13579bde, 0x1).
Proof. vm_compute. repeat split; reflexivity. Qed.

(* ------------------------------------------------------------------ C17 *)
(* jumped(iter) is iter * constant draws ahead; jumping composes; the receiver
   is not part of the result (jumped only reads it) *)
Theorem C17_pcg64_jumped :
  forall (iter : Z) t s, pcg64_wf s -> pcg64_wf t ->
  pcg64_jumped iter t s =
  (pcg64_advance (iter * 210306068529402873165736369884012333108) s, Ok tt).
Proof. exact pcg64_jumped_spec. Qed.
Theorem C17_dxsm_jumped :
  forall (iter : Z) t s, pcg64_wf s -> p_var (core s) = CmDxsm -> pcg64_wf t -> p_var (core t) = CmDxsm ->
  dxsm_jumped iter t s =
  (pcg64_advance (iter * 210306068529402873165736369884012333108) s, Ok tt).
Proof. exact dxsm_jumped_spec. Qed.
Theorem C17_pcg64_jumps_compose :
  forall a b t s, pcg64_wf s -> pcg64_wf t ->
  fst (pcg64_jumped b t (fst (pcg64_jumped a t s))) = fst (pcg64_jumped (a + b) t s).
Proof.
  intros a b t s Hs Ht. rewrite (pcg64_jumped_spec a), (pcg64_jumped_spec (a + b)) by assumption.
  cbn [fst]. rewrite pcg64_jumped_spec.
  - cbn [fst]. rewrite pcg64_advance_add by assumption. now rewrite Z.mul_add_distr_r.
  - rewrite pcg64_advance_draws by assumption. now apply pcg64_wf_reset, pcg64_wf_draws.
  - assumption.
Qed.
Theorem C17_pcg32_jumped :
  forall (iter : Z) t s, pcg32_wf s -> pcg32_wf t ->
  pcg32_jumped iter t s = (pcg32_advance (iter * 11400714819323198486) s, Ok tt).
Proof. exact pcg32_jumped_spec. Qed.
Theorem C17_pcg32_jumps_compose :
  forall a b t s, pcg32_wf s -> pcg32_wf t ->
  fst (pcg32_jumped b t (fst (pcg32_jumped a t s))) = fst (pcg32_jumped (a + b) t s).
Proof.
  intros a b t s Hs Ht. rewrite (pcg32_jumped_spec a), (pcg32_jumped_spec (a + b)) by assumption.
  cbn [fst]. rewrite pcg32_jumped_spec.
  - cbn [fst]. rewrite pcg32_advance_add by assumption. now rewrite Z.mul_add_distr_r.
  - rewrite pcg32_advance_draws by assumption. now apply pcg32_wf_draws.
  - assumption.
Qed.
Example C17_case : pcg64_wf (pcg64_seed Dxsm128 3 4) /\ pcg32_wf (pcg32_srandom 3 4)
  /\ pcg64_wf (pcg64_seed CmDxsm 3 4) /\ p_var (core (pcg64_seed CmDxsm 3 4)) = CmDxsm.
Proof. vm_compute. repeat split; reflexivity. Qed.
(* LCG128Mix: the new object differs from the receiver, advanced, in the seeding
   multiplier and in a function that is not in use. [i] and [q] are the words
   that the new instance is first seeded with. *)
Theorem C17_lcg128mix_jumped :
  forall (iter : Z) i q s, lcg_wf s -> lcg_out_ok s ->
  snd (lcg_jumped iter i q s) = Ok tt /\
  lcg_get (fst (lcg_jumped iter i q s)) = lcg_get (lcg_adv (iter * 210306068529402873165736369884012333108) s) /\
  forall cfun rs, snd (run (lcg_next cfun) rs (lb (fst (lcg_jumped iter i q s)))) =
                  snd (run (lcg_next cfun) rs (lb (lcg_adv (iter * 210306068529402873165736369884012333108) s))).
Proof. exact lcg_jumped_spec. Qed.
Theorem C17_lcg128mix_jumps_compose :
  forall a b i q i' q' i'' q'' s, lcg_wf s -> lcg_out_ok s -> N.odd (l_mult (core (lb s))) = true ->
  fst (lcg_jumped b i q (fst (lcg_jumped a i' q' s))) = fst (lcg_jumped (a + b) i'' q'' s).
Proof. exact lcg_jumped_add. Qed.
Example C17_lcg_case : lcg_wf (lcg_new 3 5 false (inr 4) 10 20) /\ lcg_out_ok (lcg_new 3 5 false (inr 4) 10 20)
  /\ N.odd (l_mult (core (lb (lcg_new 3 5 false (inr 4) 10 20)))) = true
  /\ lcg_get (fst (lcg_jumped 3 1 2 (lcg_new 3 5 false (inr 4) 10 20))) <> lcg_get (lcg_new 3 5 false (inr 4) 10 20).
Proof. vm_compute. repeat split; try reflexivity. discriminate. Qed.
(* The docstring of PCG64.jumped (pcg64.pyx:453-455) says that the state is
   jumped as-if 2**(64*iter) numbers had been generated. That is false of every
   seeded PCG64 already for iter = 1. *)
Theorem C17_pcg64_jumped_docstring_refuted :
  forall v initstate initseq t, pcg64_wf t ->
  let s := pcg64_seed v initstate initseq in
  core (fst (pcg64_jumped 1 t s)) <> core (N.iter (2 ^ 64) pcg64_draw s).
Proof. intros v a q t Ht s. apply pcg64_jump_doc; try apply pcg64_seed_ok. exact Ht. Qed.

(* ------------------------------------------------------------------ C18 *)
Theorem C18_pcg32_state_restores : restores pcg32_wf pcg32_get pcg32_set.
Proof. exact pcg32_restores. Qed.
Theorem C18_pcg64_state_restores : restores pcg64_wf pcg64_get pcg64_set.
Proof. exact pcg64_restores. Qed.
Theorem C18_dxsm_state_restores :
  restores (fun s => pcg64_wf s /\ p_var (core s) = CmDxsm) dxsm_get dxsm_set.
Proof. exact dxsm_restores. Qed.
(* LCG128Mix: the restored generator answers every sequence of requests as the
   saved one would, whatever generator it is restored into *)
Theorem C18_lcg128mix_restored_stream :
  forall cfun s t rs, lcg_wf s -> lcg_out_ok s ->
  snd (run (lcg_next cfun) rs (lb (fst (lcg_set (lcg_get s) t)))) = snd (run (lcg_next cfun) rs (lb s)).
Proof. exact lcg_restored_stream. Qed.
(* and saving it again gives the same dictionary, unless it is restored into a
   generator that was built with a user output function *)
Theorem C18_lcg128mix_save_again_partial :
  forall s t, lcg_wf s -> lcg_out_ok s -> (py_cfunc s <> None \/ py_cfunc t = None) ->
  lcg_get (fst (lcg_set (lcg_get s) t)) = lcg_get s.
Proof. exact lcg_save_again. Qed.
Theorem C18_lcg128mix_save_again_refuted :
  exists s t, lcg_wf s /\ lcg_out_ok s /\ lcg_wf t /\ lcg_out_ok t /\
  lcg_get (fst (lcg_set (lcg_get s) t)) <> lcg_get s.
Proof.
  exists (lcg_new PCG_DEFAULT_MULT 5 true (inl 1%Z) 1 2), (lcg_new PCG_DEFAULT_MULT 5 true (inr 7) 1 2).
  vm_compute. repeat split; discriminate.
Qed.
(* consequence: jumped() of such a restored generator computes other outputs *)
Theorem C18_lcg128mix_jumped_after_restore_refuted :
  exists cfun s t, lcg_wf s /\ lcg_out_ok s /\
  let r := fst (lcg_set (lcg_get s) t) in
  snd (lcg_next cfun (core (lb (fst (lcg_jumped 0 1 2 r))))) <> snd (lcg_next cfun (core (lb r))).
Proof.
  exists (fun _ _ _ => 0), (lcg_new PCG_DEFAULT_MULT 5 true (inl 1%Z) 1 2), (lcg_new PCG_DEFAULT_MULT 5 true (inr 7) 1 2).
  vm_compute. repeat split; discriminate.
Qed.
(* The dictionary contains the multiplier, but a restored generator does not
   seed like the saved one: seed() keeps using the multiplier the target was
   built with. *)
Theorem C18_lcg128mix_reseed_after_restore_refuted :
  exists s t a q, lcg_wf s /\ lcg_out_ok s /\ lcg_wf t /\ lcg_out_ok t /\
  lcg_get (lcg_seed a q (fst (lcg_set (lcg_get s) t))) <> lcg_get (lcg_seed a q s).
Proof.
  exists (lcg_new 5 5 true (inl 1%Z) 1 2), (lcg_new PCG_DEFAULT_MULT 5 true (inl 1%Z) 1 2), 1, 2.
  vm_compute. repeat split; discriminate.
Qed.
Example C18_case : lcg_wf (lcg_new 3 5 false (inr 4) 10 20) /\ lcg_out_ok (lcg_new 3 5 false (inr 4) 10 20)
  /\ lcg_out_ok (lcg_new 3 5 false (inl 2%Z) 10 20) /\ py_cfunc (lcg_new 3 5 false (inl 2%Z) 10 20) = None.
Proof. vm_compute. repeat split; try reflexivity; discriminate. Qed.

(* ------------------------------------------------------------------ C19 *)
Theorem C19_pcg64_rejected_state_changes_nothing : atomic pcg64_set.
Proof. apply pcg64_set_gen_atomic. Qed.
Theorem C19_dxsm_rejected_state_changes_nothing : atomic dxsm_set.
Proof. apply pcg64_set_gen_atomic. Qed.
(* PCG32 has already overwritten the state word when it finds the increment
   missing or out of range *)
Theorem C19_pcg32_rejected_state_refuted : ~ atomic pcg32_set.
Proof.
  intros H.
  specialize (H (PDict [("bit_generator", PStr "PCG32"); ("state", PDict [("state", PInt 99)])]%string)
                (P32 1 3) (P32 99 3) KeyError eq_refl). discriminate.
Qed.
Theorem C19_lcg128mix_rejected_state_refuted : ~ atomic lcg_set.
Proof.
  intros H.
  specialize (H (PDict [("bit_generator", PStr "LCG128Mix");
                        ("state", PDict [("state", PInt 99); ("inc", PInt 3); ("multiplier", PInt 5)]);
                        ("has_uint32", PInt 0); ("uinteger", PInt 0)]%string)
                (lcg_new 5 5 true (inl 1%Z) 1 2) _ KeyError eq_refl).
  vm_compute in H. discriminate.
Qed.
Example C19_case : exists s', pcg64_set (PDict [("bit_generator", PStr "PCG64")]%string) (pcg64_seed XslRr 1 2) = (s', Raise KeyError).
Proof. eexists. reflexivity. Qed.

(* ------------------------------------------------------------------ C24 *)
Theorem C24_pcg64_draw_injective :
  forall s t, pcg64_wf s -> pcg64_wf t -> pcg64_draw s = pcg64_draw t -> s = t.
Proof. exact pcg64_step_inj_wf. Qed.
Theorem C24_pcg32_draw_injective :
  forall s t, pcg32_wf s -> pcg32_wf t -> pcg32_draw s = pcg32_draw t -> s = t.
Proof. exact pcg32_step_inj_wf. Qed.

(* ------------------------------------------------------------------ C25 *)
(* which pairs of seed words give equal generators: exactly those that agree
   except in the top bit of the increment word *)
Theorem C25_pcg64_seed_words :
  forall v a b q r, wf 128 a -> wf 128 b -> wf 128 q -> wf 128 r ->
  (p64_initialize v a q = p64_initialize v b r <-> a = b /\ q mod 2 ^ 127 = r mod 2 ^ 127).
Proof. exact p64_initialize_inj. Qed.
Theorem C25_pcg32_seed_words :
  forall a b q r, wf 64 a -> wf 64 b -> wf 64 q -> wf 64 r ->
  (pcg32_srandom a q = pcg32_srandom b r <-> a = b /\ q mod 2 ^ 63 = r mod 2 ^ 63).
Proof. exact pcg32_srandom_inj. Qed.
(* the documented domain of inc is [0, 2**128): two different values of inc
   give the same generator *)
Theorem C25_pcg64_inc_refuted :
  exists q r, wf 128 q /\ wf 128 r /\ q <> r /\ forall v a, p64_initialize v a q = p64_initialize v a r.
Proof.
  exists 0, (2 ^ 127). split; [|split; [|split]]; try (vm_compute; congruence).
Qed.
Example C25_case : wf 128 (2 ^ 127 + 3) /\ p64_initialize XslRr 1 2 <> p64_initialize XslRr 1 3.
Proof. vm_compute. split; [reflexivity|discriminate]. Qed.

Print Assumptions C01_pcg64_advance_is_draws.
Print Assumptions C01_pcg64_advance_any_int.
Print Assumptions C01_pcg64_advance_negative_undoes_draws.
Print Assumptions C01_pcg64_advance_composes.
Print Assumptions C01_lcg128mix_advance_any_int.
Print Assumptions C01_lcg128mix_advance_composes.
Print Assumptions C02_pcg32_advance_is_draws.
Print Assumptions C02_pcg32_advance_any_int.
Print Assumptions C02_pcg32_advance_negative_undoes_draws.
Print Assumptions C02_pcg32_advance_composes.
Print Assumptions C03_pcg64_full_period.
Print Assumptions C03_pcg32_full_period.
Print Assumptions C03_pcg64_full_period_odd_inc.
Print Assumptions C03_even_increment_refuted.
Print Assumptions C04_emulated_add.
Print Assumptions C04_emulated_mult.
Print Assumptions C04_emulated_mult64.
Print Assumptions C04_emulated_advance.
Print Assumptions C04_emulated_stream_is_native_stream.
Print Assumptions C17_pcg64_jumped.
Print Assumptions C17_dxsm_jumped.
Print Assumptions C17_pcg64_jumps_compose.
Print Assumptions C17_pcg32_jumped.
Print Assumptions C17_pcg32_jumps_compose.
Print Assumptions C17_lcg128mix_jumped.
Print Assumptions C17_lcg128mix_jumps_compose.
Print Assumptions C17_pcg64_jumped_docstring_refuted.
Print Assumptions C18_pcg32_state_restores.
Print Assumptions C18_pcg64_state_restores.
Print Assumptions C18_dxsm_state_restores.
Print Assumptions C18_lcg128mix_restored_stream.
Print Assumptions C18_lcg128mix_save_again_partial.
Print Assumptions C18_lcg128mix_save_again_refuted.
Print Assumptions C18_lcg128mix_jumped_after_restore_refuted.
Print Assumptions C18_lcg128mix_reseed_after_restore_refuted.
Print Assumptions C19_pcg64_rejected_state_changes_nothing.
Print Assumptions C19_dxsm_rejected_state_changes_nothing.
Print Assumptions C19_pcg32_rejected_state_refuted.
Print Assumptions C19_lcg128mix_rejected_state_refuted.
Print Assumptions C24_pcg64_draw_injective.
Print Assumptions C24_pcg32_draw_injective.
Print Assumptions C25_pcg64_seed_words.
Print Assumptions C25_pcg32_seed_words.
Print Assumptions C25_pcg64_inc_refuted.
