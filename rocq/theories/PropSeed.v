(* C21: seeding a used generator, for the classes not treated elsewhere; the
   buffered 32-bit half does not survive seeding. Also the LXM LCG jump. *)
From Verif Require Import Word Arr Buffer32 Py MultiWord Half SeedSeq Pcg Xoshiro Aes LaneCtr AesPy Speck ChaCha Sfc SfcFacts Romu Efiix Jsf Squares.
From Coq Require Import String.
Open Scope N_scope.
Ltac Zify.zify_post_hook ::= idtac.

(* ------------------------------------------------------------------- C21 *)
(* AESCounter and SPECK128 keep the old output buffer but start at its end: the
   values, the errors and all later states are those of a new object *)
Lemma lane_seed_forget {K} (enc : K -> N * N -> N * N) inc full wrapo safe (c : list (N * N)) key o buf buf' k :
  full o = true ->
  ldraws enc inc full wrapo safe (Datatypes.S k) (Lst c key buf o) = ldraws enc inc full wrapo safe (Datatypes.S k) (Lst c key buf' o).
Proof. intros F. cbn [ldraws]. unfold lnext. cbn [l_off]. rewrite F. reflexivity. Qed.
Theorem C21_aes_reseed :
  forall key counter a b k,
  option_map snd (aes_draws k (core (aes_seed key counter a))) = option_map snd (aes_draws k (core (aes_seed key counter b)))
  /\ has32 (aes_seed key counter a) = has32 (aes_seed key counter b) /\ u32 (aes_seed key counter a) = u32 (aes_seed key counter b).
Proof.
  intros key counter a b k. split; [|split; reflexivity]. destruct k as [|k]; [reflexivity|]. 
  refine (f_equal (option_map snd) _). apply lane_seed_forget. reflexivity.
Qed.
Theorem C21_speck_reseed :
  forall key counter a b k, sk_rounds (l_key (core a)) = sk_rounds (l_key (core b)) ->
  option_map snd (sp_draws k (core (sp_seed key counter a))) = option_map snd (sp_draws k (core (sp_seed key counter b)))
  /\ has32 (sp_seed key counter a) = has32 (sp_seed key counter b) /\ u32 (sp_seed key counter a) = u32 (sp_seed key counter b).
Proof.
  intros key counter a b k R. split; [|split; reflexivity]. destruct k as [|k]; [reflexivity|].
  unfold sp_seed; cbn [core]. 
  assert (G : forall c rk r r' buf buf', r = r' -> sp_draws (Datatypes.S k) (Lst c (SKey rk r) buf 96) = sp_draws (Datatypes.S k) (Lst c (SKey rk r') buf' 96))
    by (intros c rk r r' buf buf' ->; apply lane_seed_forget; reflexivity).
  exact (f_equal (option_map snd) (G _ _ _ _ _ _ R)).
Qed.
Theorem C21_chacha_reseed :
  forall p key counter a b, cc_rounds a = cc_rounds b -> cc_seed p key counter a = cc_seed p key counter b.
Proof. intros p key counter a b R. unfold cc_seed, cc_generate. cbn. rewrite R. reflexivity. Qed.
(* PCG64's LCG128Mix: the parameters are constructor arguments *)
Theorem C21_lcg128mix_reseed :
  forall initstate initseq a b, py_mult a = py_mult b -> py_cfunc a = py_cfunc b ->
  l_dxsm (core (lb a)) = l_dxsm (core (lb b)) -> l_post (core (lb a)) = l_post (core (lb b)) ->
  l_out (core (lb a)) = l_out (core (lb b)) -> l_func (core (lb a)) = l_func (core (lb b)) ->
  lcg_seed initstate initseq a = lcg_seed initstate initseq b.
Proof. intros initstate initseq a b E1 E2 E3 E4 E5 E6. unfold lcg_seed. now rewrite E1, E2, E3, E4, E5, E6. Qed.
(* Xorshift1024 keeps its index (C21_xorshift1024_seed_history_refuted); used
   objects whose index is the same as that of a new one give the same state *)
Theorem C21_xorshift1024_reseed_partial :
  forall words b, xs_p (core b) = 0%Z -> xorshift1024_seed words b = xorshift1024_new words.
Proof. intros words b E. unfold xorshift1024_seed, xorshift1024_new. now rewrite E. Qed.
Example C21_reseed_case : sk_rounds (l_key (core (sp_zero 34))) = sk_rounds (l_key (core (sp_seed 5 6 (sp_zero 34))))
  /\ sp_zero 34 <> sp_seed 5 6 (sp_zero 34)
  /\ cc_rounds (CC [] [] 0 0 20) = cc_rounds (cc_seed Scalar 1 2 (CC [] [] 0 0 20))
  /\ xs_p (core (xorshift1024_new (repeat 7 16))) = 0%Z.
Proof. split; [reflexivity|]. split; [discriminate|]. split; reflexivity. Qed.

(* no 32-bit half from before seeding is handed out: the first 32-bit value
   after seeding is the low half of the first 64-bit value *)
Definition starts_fresh {A} (next : A -> A * N) (b : buffered A) : Prop :=
  snd (b_next32 next b) = snd (b_next64 next b) mod 2 ^ 32.
Lemma fresh_half {A} (next : A -> A * N) b : has32 b = false -> starts_fresh next b.
Proof.
  intros H. unfold starts_fresh, b_next32, b_next64. rewrite H. destruct (next (core b)) as [a v]. cbn [snd].
  exact (N.land_ones v 32).
Qed.
Lemma lxm_seed_half words s t : lxm_seed words s = Some t -> has32 t = false.
Proof. unfold lxm_seed. destruct (_ =? 0); [discriminate|]. intros [= <-]. reflexivity. Qed.
Lemma sfc_seed_half w k st t : sfc_seed_from w k st = Some t -> has32 t = false.
Proof.
  unfold sfc_seed_from. destruct st as [|s0 [|s1 [|s2 rest]]]; try discriminate.
  destruct w, k, rest as [|x [|y r]]; try discriminate; intros E; apply (f_equal (option_map has32)) in E; cbn [option_map has32] in E; now injection E as <-.
Qed.
Theorem C21_seed_drops_half :
  (forall words, starts_fresh xoshiro256_next (xoshiro256_seed words))
  /\ (forall words, starts_fresh xoshiro512_next (xoshiro512_seed words))
  /\ (forall pp words, starts_fresh xoroc_next (xoroshiro128_new pp words))
  /\ (forall words s t, lxm_seed words s = Some t -> starts_fresh lxm_next t)
  /\ (forall v a b, starts_fresh p64_next (pcg64_seed v a b))
  /\ (forall cfun a b s, starts_fresh (lcg_next cfun) (lb (lcg_seed a b s)))
  /\ (forall w k st t, sfc_seed_from w k st = Some t -> starts_fresh sfc_next t)
  /\ (forall key ctr b, starts_fresh squares64 (sq_seed key ctr true b))
  /\ (forall s1 s2 s3 s4 b, starts_fresh efiix_next (ef_seed_from s1 s2 s3 s4 b))
  /\ (forall w x y z b, has32 (romu_seed_from w x y z b) = false)
  /\ (forall words b, has32 (xorshift1024_seed words b) = false)
  /\ (forall key ctr b, has32 (aes_seed key ctr b) = false)
  /\ (forall key ctr b, has32 (sp_seed key ctr b) = false).
Proof.
  repeat split; intros; try reflexivity; try (apply fresh_half; reflexivity).
  - apply fresh_half. exact (lxm_seed_half _ _ _ H).
  - apply fresh_half. exact (sfc_seed_half _ _ _ _ H).
Qed.
Example C21_drops_half_case : exists b : xoshiro256, has32 b = true /\ has32 (xoshiro256_seed [1; 2; 3; 4]) = false
  /\ lxm_seed [1; 2; 3; 4; 5] (Buf (LX v4_zero 0 1) true 9) <> None /\ sfc_seed_from None (Some 3) [1; 2; 3; 4] <> None.
Proof. exists (Buf v4_zero true 1). repeat split; discriminate. Qed.

(* ------------------------------------------------------------------- C56 *)
(* numpy-compatible seeding of SFC64 takes no other w, k than 1 *)
Theorem C56_sfc_numpy_parameters :
  forall w k st, sfc_words w k <= N.of_nat (List.length st) ->
  (w = Some 1 /\ k = Some 1 /\ exists b, sfc_seed_numpy w k st = Ok b /\ sf_k (core b) = 1)
  \/ ((w <> Some 1 \/ k <> Some 1) /\ sfc_seed_numpy w k st = Raise ValueError).
Proof.
  intros w k st L.
  assert (D : forall o : option N, o = Some 1 \/ o <> Some 1) by (intros [o|]; [destruct (N.eq_dec o 1) as [->|]; [now left|right; congruence]|right; discriminate]).
  destruct (D w) as [->|W]; [destruct (D k) as [->|K]|].
  - left. split; [reflexivity|]. split; [reflexivity|]. destruct st as [|s0 [|s1 [|s2 rest]]]; [exfalso; apply N.leb_le in L; discriminate L..|].
    exists (Buf (sfc_seed s0 s1 s2 1 1) false 0). split; [reflexivity|]. apply (sfc_iter_k 12).
  - right. split; [now right|]. unfold sfc_seed_numpy. destruct k as [[|[?|?|]]|]; try reflexivity. now destruct K.
  - right. split; [now left|]. unfold sfc_seed_numpy. destruct w as [[|[?|?|]]|]; try reflexivity. now destruct W.
Qed.

(* ------------------------------------------------------------------- C14 *)
(* lxm.c has a function that would move the LCG part of LXM by 2^128 steps: it
   would do nothing, because the period of that part is 2^64 *)
Lemma lcg_jump_linear n : forall i am ap cm k b,
  lcg_jump_loop n i am (wmul 64 ap b) cm (wmul 64 k b)
  = (fst (lcg_jump_loop n i am ap cm k), wmul 64 (snd (lcg_jump_loop n i am ap cm k)) b).
Proof.
  induction n as [|n IH]; intros i am ap cm k b; [reflexivity|]. cbn [lcg_jump_loop].
  assert (M : forall x y, wmul 64 x (wmul 64 y b) = wmul 64 (wmul 64 x y) b).
  { intros x y. unfold wmul, trunc. rewrite N.mul_mod_idemp_l, N.mul_mod_idemp_r by discriminate. now rewrite N.mul_assoc. }
  rewrite M. destruct (i =? 128); [|apply IH].
  rewrite <- IH. f_equal. unfold wadd, wmul, trunc.
  rewrite !N.mul_mod_idemp_l, <- N.add_mod, N.mul_add_distr_r by discriminate.
  rewrite (N.add_mod (_ mod _ * b)), N.mul_mod_idemp_l, <- N.add_mod by discriminate. f_equal. lia.
Qed.
Lemma lcg_jump_one : lcg_jump_loop 129 0 1 0 LXM_MULT 1 = (1, 0).
Proof. vm_compute. reflexivity. Qed.
Theorem C14_lxm_lcg_jump_is_identity :
  forall c, wf 64 (lx_lcg c) -> wf 64 (lx_b c) -> lxm_lcg_jump c = c.
Proof.
  intros [x l b] Hl Hb. cbn [lx_lcg lx_b] in *. unfold lxm_lcg_jump. cbn [lx_x lx_lcg lx_b]. 
  pose proof (lcg_jump_linear 129 0 1 0 LXM_MULT 1 b) as E.
  replace (wmul 64 0 b) with 0 in E by reflexivity.
  replace (wmul 64 1 b) with b in E by (unfold wmul, trunc; rewrite N.mul_1_l, N.mod_small; [reflexivity|exact Hb]).
  rewrite E.
  rewrite lcg_jump_one. cbn [fst snd]. change (wmul 64 0 b) with 0.
  replace (wadd 64 (wmul 64 1 l) 0) with l; [reflexivity|]. unfold wadd, wmul, trunc. rewrite N.add_0_r, N.mul_1_l, N.mod_mod by discriminate. symmetry. apply N.mod_small. exact Hl.
Qed.
Example C14_lcg_jump_case : lxm_lcg_jump (LX v4_zero 12345 3037000493) = LX v4_zero 12345 3037000493.
Proof. apply C14_lxm_lcg_jump_is_identity; reflexivity. Qed.

Print Assumptions C21_aes_reseed.
Print Assumptions C21_speck_reseed.
Print Assumptions C21_chacha_reseed.
Print Assumptions C21_lcg128mix_reseed.
Print Assumptions C21_xorshift1024_reseed_partial.
Print Assumptions C21_seed_drops_half.
Print Assumptions C56_sfc_numpy_parameters.
Print Assumptions C14_lxm_lcg_jump_is_identity.
