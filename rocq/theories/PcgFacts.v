(* Proofs about the PCG family. *)
From Verif Require Import Word Common Buffer32 Lcg Py Pcg.
From Coq Require Import String ZifyBool ZifyNat ZifyN.
Open Scope N_scope.

(* number of draws meant by a Python integer *)
Definition ndraws (w : N) (delta : Z) : N := Z.to_N (delta mod 2 ^ Z.of_N w).

Lemma ndraws_lt w d : ndraws w d < 2 ^ w.
Proof.
  unfold ndraws. pose proof (Z.mod_pos_bound d _ (Zpow2_pos w)).
  assert (2 ^ w = Z.to_N (2 ^ Z.of_N w))%N by (rewrite <- (N2Z.id (2 ^ w)), N2Z.inj_pow; reflexivity).
  lia.
Qed.
Lemma ndraws_of_N w n : ndraws w (Z.of_N n) = n mod 2 ^ w.
Proof. unfold ndraws. rewrite <- (N2Z.id (n mod 2 ^ w)), Ztrunc. reflexivity. Qed.
Lemma ndraws_add w a b : (ndraws w a + ndraws w b) mod 2 ^ w = ndraws w (a + b).
Proof.
  apply N2Z.inj. rewrite Ztrunc, N2Z.inj_add. unfold ndraws.
  rewrite !Z2N.id by (apply Z.mod_pos_bound, Zpow2_pos).
  now rewrite <- Z.add_mod by (pose proof (Zpow2_pos w); lia).
Qed.

(* shift/or of two halves is the value itself *)
Lemma lor_shift w a b : wf w b -> N.lor (N.shiftl a w) b = a * 2 ^ w + b.
Proof.
  intros Hb. rewrite <- N.shiftl_mul_pow2. symmetry. 
  rewrite N.add_nocarry_lxor.
  - rewrite N.lxor_lor; [reflexivity|].
    apply N.bits_inj. intros i. rewrite N.land_spec, N.bits_0.
    destruct (N.ltb_spec i w).
    + now rewrite N.shiftl_spec_low.
    + rewrite wf_testbit in Hb. rewrite Hb by lia. now rewrite andb_false_r.
  - apply N.bits_inj. intros i. rewrite N.land_spec, N.bits_0.
    destruct (N.ltb_spec i w).
    + now rewrite N.shiftl_spec_low.
    + rewrite wf_testbit in Hb. rewrite Hb by lia. now rewrite andb_false_r.
Qed.
Lemma split128 (z : Z) : (0 <= z < 2 ^ 128)%Z ->
  N.lor (N.shiftl (Z.to_N (z / 2 ^ 64)) 64) (Z.to_N (z mod 2 ^ 64)) = Z.to_N z.
Proof.
  intros Hz. rewrite lor_shift.
  - apply N2Z.inj. rewrite N2Z.inj_add, N2Z.inj_mul.
    rewrite !Z2N.id by (try apply Z.div_pos; try apply Z.mod_pos_bound; lia).
    change (Z.of_N (2 ^ 64)) with (2 ^ 64)%Z.
    pose proof (Z.div_mod z (2 ^ 64) ltac:(lia)). lia.
  - unfold wf. change (2 ^ 64) with (Z.to_N (2 ^ 64)%Z).
    apply Z2N.inj_lt; try lia; apply Z.mod_pos_bound; lia.
Qed.
Lemma np_u128_ok n : wf 128 n -> np_u128 (Z.of_N n) = Ok n.
Proof.
  intros Hn. apply Zwf in Hn. change (2 ^ Z.of_N 128)%Z with (2 ^ 128)%Z in Hn.
  unfold np_u128, np_uint.
  assert (H1 : (0 <= Z.of_N n / 2 ^ 64 < 2 ^ 64)%Z).
  { split; [apply Z.div_pos; lia|apply Z.div_lt_upper_bound; lia]. }
  pose proof (Z.mod_pos_bound (Z.of_N n) (2 ^ 64) ltac:(lia)) as H2.
  change (2 ^ Z.of_N 64)%Z with (2 ^ 64)%Z.
  rewrite (proj2 (Z.leb_le _ _) (proj1 H1)), (proj2 (Z.ltb_lt _ _) (proj2 H1)). cbn [andb obind].
  rewrite (proj2 (Z.leb_le _ _) (proj1 H2)), (proj2 (Z.ltb_lt _ _) (proj2 H2)). cbn [andb obind].
  rewrite split128 by lia. now rewrite N2Z.id.
Qed.

(* ---- PCG32 ---- *)
Definition pcg32_draw (s : pcg32) : pcg32 := fst (pcg32_next32 s).
Lemma pcg32_draws n : forall s,
  N.iter n pcg32_draw s = P32 (N.iter n (lcg_step 64 PCG_MULT64 (p32_inc s)) (p32_state s)) (p32_inc s).
Proof.
  induction n as [|n IH] using N.peano_ind; intros [st inc]; [reflexivity|].
  rewrite !N.iter_succ, IH. reflexivity.
Qed.
Lemma pcg32_advance_draws delta s : pcg32_wf s ->
  pcg32_advance delta s = N.iter (ndraws 64 delta) pcg32_draw s.
Proof.
  intros [Hs Hi]. rewrite pcg32_draws. unfold pcg32_advance.
  rewrite wrap_int_mod, lcg_advance_iter by exact Hs. reflexivity.
Qed.
Lemma pcg32_wf_draws n s : pcg32_wf s -> pcg32_wf (N.iter n pcg32_draw s).
Proof.
  intros [Hs Hi]. rewrite pcg32_draws. split; [now apply lcg_iter_wf|exact Hi].
Qed.
Lemma pcg32_draws_mod n s : pcg32_wf s ->
  N.iter n pcg32_draw s = N.iter (n mod 2 ^ 64) pcg32_draw s.
Proof.
  intros [Hs Hi]. rewrite !pcg32_draws. f_equal. now apply lcg_iter_mod.
Qed.
Lemma pcg32_advance_add a b s : pcg32_wf s ->
  pcg32_advance b (pcg32_advance a s) = pcg32_advance (a + b) s.
Proof.
  intros H. rewrite (pcg32_advance_draws a), (pcg32_advance_draws (a + b)) by exact H.
  rewrite pcg32_advance_draws by now apply pcg32_wf_draws.
  rewrite <- Niter_add, <- ndraws_add. now apply pcg32_draws_mod.
Qed.
Lemma pcg32_advance_nat n s : pcg32_wf s ->
  pcg32_advance (Z.of_N n) s = N.iter n pcg32_draw s.
Proof.
  intros H. rewrite pcg32_advance_draws, ndraws_of_N by exact H. symmetry. now apply pcg32_draws_mod.
Qed.
Lemma pcg32_advance_neg n s : pcg32_wf s ->
  pcg32_advance (- Z.of_N n) (N.iter n pcg32_draw s) = s.
Proof.
  intros H. rewrite <- pcg32_advance_nat, pcg32_advance_add by exact H.
  replace (Z.of_N n + - Z.of_N n)%Z with 0%Z by lia.
  now rewrite pcg32_advance_draws by exact H.
Qed.

Lemma wf32_xsh s : wf 32 (xsh_rr s).
Proof.
  unfold xsh_rr, pcg_rotr_32. apply wf_lor; auto using wf_shr, wf_trunc, wf_wshl.
Qed.

Lemma pcg32_restores : restores pcg32_wf pcg32_get pcg32_set.
Proof.
  intros [st inc] t [Hs Hi] _. cbn in Hs, Hi.
  unfold pcg32_set. pyrun. reflexivity.
Qed.
Lemma pcg32_jumped_spec iter t s : pcg32_wf s -> pcg32_wf t ->
  pcg32_jumped iter t s = (pcg32_advance (iter * 11400714819323198486) s, Ok tt).
Proof.
  intros Hs Ht. unfold pcg32_jumped, bind. rewrite (pcg32_restores s t Hs Ht). reflexivity.
Qed.

(* ---- PCG64 ---- *)
Definition pcg64_draw (s : pcg64) : pcg64 := fst (pcg64_next64 s).

Lemma p64_next_fst c : fst (p64_next c) = p64_step c.
Proof. unfold p64_next. destruct (p_var c); reflexivity. Qed.
Lemma pcg64_draw_eq s : pcg64_draw s = Buf (p64_step (core s)) (has32 s) (u32 s).
Proof.
  unfold pcg64_draw, pcg64_next64, b_next64. rewrite <- p64_next_fst.
  destruct (p64_next (core s)); reflexivity.
Qed.
Lemma pcg64_draws n : forall s,
  N.iter n pcg64_draw s =
  Buf (P64 (N.iter n (lcg_step 128 (p64_mult (p_var (core s))) (p_inc (core s))) (p_state (core s)))
           (p_inc (core s)) (p_var (core s))) (has32 s) (u32 s).
Proof.
  induction n as [|n IH] using N.peano_ind; intros [[st inc v] h u]; [reflexivity|].
  rewrite !N.iter_succ, IH, pcg64_draw_eq. reflexivity.
Qed.
Lemma pcg64_advance_draws delta s : pcg64_wf s ->
  pcg64_advance delta s = reset32 (N.iter (ndraws 128 delta) pcg64_draw s).
Proof.
  intros (Hs & Hi & Hu). rewrite pcg64_draws. unfold pcg64_advance, reset32, p64_advance_core.
  rewrite split128 by exact (wrap_int_range delta 128).
  rewrite wrap_int_mod, lcg_advance_iter by exact Hs. reflexivity.
Qed.
Lemma p64_mult_odd v : N.odd (p64_mult v) = true.
Proof. destruct v; reflexivity. Qed.
Lemma p64_mult_mod4 v : p64_mult v mod 4 = 1.
Proof. destruct v; reflexivity. Qed.
Lemma pcg64_wf_draws n s : pcg64_wf s -> pcg64_wf (N.iter n pcg64_draw s).
Proof.
  intros (Hs & Hi & Hu). rewrite pcg64_draws. split; [|split]; cbn; auto.
  now apply lcg_iter_wf.
Qed.
Lemma pcg64_wf_reset s : pcg64_wf s -> pcg64_wf (reset32 s).
Proof. intros (Hs & Hi & Hu). split; [|split]; cbn; auto. apply wf_0. Qed.
Lemma pcg64_draws_mod n s : pcg64_wf s ->
  N.iter n pcg64_draw s = N.iter (n mod 2 ^ 128) pcg64_draw s.
Proof.
  intros (Hs & Hi & Hu). rewrite !pcg64_draws. f_equal. f_equal.
  apply lcg_iter_mod; [apply p64_mult_odd|exact Hs].
Qed.
Lemma reset_draws n s : N.iter n pcg64_draw (reset32 s) = reset32 (N.iter n pcg64_draw s).
Proof. now rewrite !pcg64_draws. Qed.
Lemma pcg64_advance_add a b s : pcg64_wf s ->
  pcg64_advance b (pcg64_advance a s) = pcg64_advance (a + b) s.
Proof.
  intros H. rewrite (pcg64_advance_draws a), (pcg64_advance_draws (a + b)) by exact H.
  rewrite pcg64_advance_draws by now apply pcg64_wf_reset, pcg64_wf_draws.
  rewrite reset_draws, <- Niter_add, pcg64_draws_mod, ndraws_add by exact H. reflexivity.
Qed.
Lemma pcg64_advance_nat n s : pcg64_wf s ->
  pcg64_advance (Z.of_N n) s = reset32 (N.iter n pcg64_draw s).
Proof.
  intros H. rewrite pcg64_advance_draws, ndraws_of_N by exact H.
  now rewrite (pcg64_draws_mod n) by exact H.
Qed.
Lemma pcg64_advance_neg n s : pcg64_wf s ->
  pcg64_advance (- Z.of_N n) (N.iter n pcg64_draw s) = reset32 s.
Proof.
  intros H. rewrite pcg64_advance_draws by now apply pcg64_wf_draws.
  rewrite <- Niter_add, pcg64_draws_mod by exact H.
  replace ((n + ndraws 128 (- Z.of_N n)) mod 2 ^ 128) with 0; [reflexivity|].
  rewrite <- N.add_mod_idemp_l by apply pow2_nz.
  rewrite <- (ndraws_of_N 128 n), ndraws_add. now rewrite Z.add_opp_diag_r.
Qed.

Lemma pcg64_jump_spec iter s : pcg64_wf s ->
  pcg64_jump_inplace iter s = pcg64_advance (iter * 210306068529402873165736369884012333108) s.
Proof.
  intros H. unfold pcg64_jump_inplace. rewrite !pcg64_advance_draws by exact H.
  f_equal. f_equal. unfold ndraws. f_equal.
  change (2 ^ Z.of_N 128)%Z with (2 ^ 128)%Z.
  rewrite <- Z.mod_eq, Z.mod_mod by discriminate. f_equal. unfold PCG64_JUMP. ring.
Qed.

Lemma canon_name v : canon_variant (PStr (variant_name v)) = v.
Proof. destruct v; reflexivity. Qed.
Lemma pcg64_restores : restores pcg64_wf pcg64_get pcg64_set.
Proof.
  intros [[st inc v] h u] t (Hs & Hi & Hu) _. cbn in Hs, Hi, Hu.
  unfold pcg64_set, pcg64_set_gen. repeat (pyrun; try rewrite np_u128_ok by assumption). destruct v; reflexivity.
Qed.
Lemma dxsm_restores : restores (fun s => pcg64_wf s /\ p_var (core s) = CmDxsm) dxsm_get dxsm_set.
Proof.
  intros [[st inc v] h u] t [(Hs & Hi & Hu) Hv] _. cbn in Hs, Hi, Hu, Hv. subst v.
  unfold dxsm_set, pcg64_set_gen. repeat (pyrun; try rewrite np_u128_ok by assumption). reflexivity.
Qed.
Lemma pcg64_jumped_spec iter t s : pcg64_wf s -> pcg64_wf t ->
  pcg64_jumped iter t s = (pcg64_advance (iter * 210306068529402873165736369884012333108) s, Ok tt).
Proof.
  intros Hs Ht. unfold pcg64_jumped, bind. rewrite (pcg64_restores s t Hs Ht).
  unfold modify. now rewrite pcg64_jump_spec.
Qed.
Lemma dxsm_jumped_spec iter t s : pcg64_wf s -> p_var (core s) = CmDxsm -> pcg64_wf t -> p_var (core t) = CmDxsm ->
  dxsm_jumped iter t s = (pcg64_advance (iter * 210306068529402873165736369884012333108) s, Ok tt).
Proof.
  intros Hs Hv Ht Hw. unfold dxsm_jumped, bind. rewrite (dxsm_restores s t (conj Hs Hv) (conj Ht Hw)).
  unfold modify. now rewrite pcg64_jump_spec.
Qed.

(* Every exception of the PCG64 setter precedes its only write *)
Lemma pcg64_set_gen_atomic n f vo : atomic (pcg64_set_gen n f vo).
Proof.
  intros v. unfold pcg64_set_gen. atomic_tac.
Qed.

(* seeding gives an odd increment, hence full period *)
Lemma odd_inc w x : 1 <= w -> N.odd (N.lor (wshl w x 1) 1) = true.
Proof.
  intros. rewrite <- N.bit0_odd, N.lor_spec. now rewrite orb_true_r.
Qed.
Lemma pcg64_period n s : pcg64_wf s -> N.odd (p_inc (core s)) = true ->
  (N.iter n pcg64_draw s = s <-> n mod 2 ^ 128 = 0).
Proof.
  intros (Hs & Hi & Hu) Ho. rewrite pcg64_draws. destruct s as [[st inc v] h u]. cbn in *.
  rewrite <- (lcg_period 128 (p64_mult v) inc st n); auto using p64_mult_mod4.
  split; [congruence|intros ->; reflexivity].
Qed.
Lemma pcg32_period n s : pcg32_wf s -> N.odd (p32_inc s) = true ->
  (N.iter n pcg32_draw s = s <-> n mod 2 ^ 64 = 0).
Proof.
  intros [Hs Hi] Ho. rewrite pcg32_draws. destruct s as [st inc]. cbn in *.
  rewrite <- (lcg_period 64 PCG_MULT64 inc st n); auto.
  split; [congruence|intros ->; reflexivity].
Qed.
