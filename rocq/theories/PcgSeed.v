(* Seeding of the PCG family, distinct seeds, jump documentation. *)
From Verif Require Import Word Common Buffer32 Lcg Py Pcg PcgFacts LcgMixFacts.
From Coq Require Import String ZifyBool ZifyNat ZifyN.
Open Scope N_scope.

Lemma shl1_or1 w x : wf w x -> 1 <= w -> N.lor (wshl w x 1) 1 = (2 * x) mod 2 ^ w + 1.
Proof.
  intros Hx Hw. unfold wshl. rewrite N.shiftl_mul_pow2. change (2 ^ 1) with 2. rewrite (N.mul_comm x 2).
  destruct (N.eq_dec w 0) as [->|Hn]; [lia|].
  assert (E : 2 ^ w = 2 * 2 ^ (w - 1)).
  { rewrite <- N.pow_succ_r'. f_equal. lia. }
  rewrite E. rewrite N.mul_mod_distr_l by (try apply pow2_nz; discriminate).
  set (y := x mod 2 ^ (w - 1)).
  replace (2 * y) with (N.shiftl y 1) by (rewrite N.shiftl_mul_pow2; change (2 ^ 1) with 2; lia).
  rewrite (lor_shift 1) by reflexivity. rewrite N.shiftl_mul_pow2. reflexivity.
Qed.
Lemma inc_inj w x y : 1 <= w -> wf w x -> wf w y ->
  (N.lor (wshl w x 1) 1 = N.lor (wshl w y 1) 1 <-> x mod 2 ^ (w - 1) = y mod 2 ^ (w - 1)).
Proof.
  intros Hw Hx Hy. rewrite !shl1_or1 by assumption.
  assert (E : 2 ^ w = 2 * 2 ^ (w - 1)).
  { rewrite <- N.pow_succ_r'. f_equal. lia. }
  rewrite E, !N.mul_mod_distr_l by (try apply pow2_nz; discriminate). split; intros; lia.
Qed.

Lemma init_inj w m inc s1 a b : N.odd m = true -> wf w a -> wf w b ->
  lcg_step w m inc (wadd w s1 a) = lcg_step w m inc (wadd w s1 b) -> a = b.
Proof.
  intros Hm Ha Hb H. apply lcg_step_inj in H; auto using wf_wadd.
  now apply wadd_inj_l in H.
Qed.

Lemma p64_initialize_inj v a b q r :
  wf 128 a -> wf 128 b -> wf 128 q -> wf 128 r ->
  (p64_initialize v a q = p64_initialize v b r <-> a = b /\ q mod 2 ^ 127 = r mod 2 ^ 127).
Proof.
  intros Ha Hb Hq Hr. unfold p64_initialize, p64_step. cbn [p_var p_inc p_state]. split.
  - intros [= H1 H2].
    pose proof (proj1 (inc_inj 128 q r ltac:(lia) Hq Hr) H2) as Hqr. rewrite H2 in H1.
    apply init_inj in H1; auto using p64_mult_odd.
  - intros [-> H]. apply (inc_inj 128 q r ltac:(lia) Hq Hr) in H. now rewrite H.
Qed.
Lemma pcg32_srandom_inj a b q r :
  wf 64 a -> wf 64 b -> wf 64 q -> wf 64 r ->
  (pcg32_srandom a q = pcg32_srandom b r <-> a = b /\ q mod 2 ^ 63 = r mod 2 ^ 63).
Proof.
  intros Ha Hb Hq Hr. unfold pcg32_srandom, pcg32_step. cbn [p32_inc p32_state]. split.
  - intros [= H1 H2].
    pose proof (proj1 (inc_inj 64 q r ltac:(lia) Hq Hr) H2) as Hqr. rewrite H2 in H1.
    apply init_inj in H1; auto.
  - intros [-> H]. apply (inc_inj 64 q r ltac:(lia) Hq Hr) in H. now rewrite H.
Qed.

Lemma wf_odd_inc w x : 1 <= w -> wf w (N.lor (wshl w x 1) 1).
Proof.
  intros. apply wf_lor; [apply wf_wshl|]. unfold wf.
  apply N.lt_le_trans with (2 ^ 1); [reflexivity|]. now apply N.pow_le_mono_r.
Qed.
Lemma pcg64_seed_ok v a q : pcg64_wf (pcg64_seed v a q) /\ N.odd (p_inc (core (pcg64_seed v a q))) = true.
Proof.
  split; [split; [|split]|]; cbn.
  - apply wf_lcg_step.
  - now apply wf_odd_inc.
  - reflexivity.
  - now apply odd_inc.
Qed.
Lemma pcg32_seed_ok a q : pcg32_wf (pcg32_srandom a q) /\ N.odd (p32_inc (pcg32_srandom a q)) = true.
Proof.
  split; [split|]; cbn.
  - apply wf_lcg_step.
  - now apply wf_odd_inc.
  - now apply odd_inc.
Qed.

(* every distinct number of draws below the period leads to a distinct state *)
Lemma pcg64_distinct i j s : pcg64_wf s -> N.odd (p_inc (core s)) = true ->
  (N.iter i pcg64_draw s = N.iter j pcg64_draw s <-> i mod 2 ^ 128 = j mod 2 ^ 128).
Proof.
  intros (Hs & Hi & Hu) Ho. rewrite !pcg64_draws. destruct s as [[st inc v] h u]. cbn in *.
  rewrite <- (lcg_states_distinct 128 (p64_mult v) inc st i j); auto using p64_mult_mod4.
  split; [congruence|intros ->; reflexivity].
Qed.
Lemma pcg32_distinct i j s : pcg32_wf s -> N.odd (p32_inc s) = true ->
  (N.iter i pcg32_draw s = N.iter j pcg32_draw s <-> i mod 2 ^ 64 = j mod 2 ^ 64).
Proof.
  intros [Hs Hi] Ho. rewrite !pcg32_draws. destruct s as [st inc]. cbn in *.
  rewrite <- (lcg_states_distinct 64 PCG_MULT64 inc st i j); auto.
  split; [congruence|intros ->; reflexivity].
Qed.

(* The docstring of PCG64.jumped promises 2**(64*iter) draws. *)
Lemma pcg64_jump_draws it n s t : pcg64_wf s -> pcg64_wf t -> N.odd (p_inc (core s)) = true ->
  (core (fst (pcg64_jumped it t s)) = core (N.iter n pcg64_draw s)
   <-> ndraws 128 (it * 210306068529402873165736369884012333108) = n mod 2 ^ 128).
Proof.
  intros Hs Ht Ho. rewrite pcg64_jumped_spec by assumption. cbn [fst].
  rewrite pcg64_advance_draws by exact Hs. cbn [reset32 core].
  set (k := ndraws 128 _). 
  replace k with (k mod 2 ^ 128) at 2 by (apply N.mod_small, ndraws_lt). clearbody k.
  rewrite <- (pcg64_distinct k n s Hs Ho). rewrite !pcg64_draws. cbn [core].
  split; [|now intros [= ->]]. now intros [= ->].
Qed.
Lemma pcg64_jump_doc s t : pcg64_wf s -> pcg64_wf t -> N.odd (p_inc (core s)) = true ->
  core (fst (pcg64_jumped 1 t s)) <> core (N.iter (2 ^ 64) pcg64_draw s).
Proof.
  intros Hs Ht Ho H. apply pcg64_jump_draws in H; [|assumption..].
  vm_compute in H. discriminate.
Qed.

Lemma pcg32_step_inj_wf s t : pcg32_wf s -> pcg32_wf t -> pcg32_draw s = pcg32_draw t -> s = t.
Proof.
  destruct s as [a b], t as [c d]. intros [H1 H2] [H3 H4] H. cbn in *.
  injection H as H E. subst d. apply lcg_step_inj in H; auto. now subst.
Qed.
Lemma pcg64_step_inj_wf s t : pcg64_wf s -> pcg64_wf t -> pcg64_draw s = pcg64_draw t -> s = t.
Proof.
  destruct s as [[a b v] h u], t as [[c d v'] h' u']. intros (H1 & H2 & H3) (H4 & H5 & H6) H.
  rewrite !pcg64_draw_eq in H. cbn in *. injection H as H E Ev Eh Eu. subst.
  apply lcg_step_inj in H; auto using p64_mult_odd. now subst.
Qed.
