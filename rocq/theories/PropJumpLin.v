(* How far jumped() moves (C55) and which jumped generators do not overlap (C77),
   for the PCG classes, LXM, Xorshift1024 and the xoshiro family.

   Documented lengths of jumped(iter): PCG32 (pcg32.pyx) iter *
   11400714819323198486; PCG64, PCG64DXSM and LCG128Mix (pcg64.pyx:466, 942,
   1134) "2**(64 * iter)", but PCG64.jump (pcg64.pyx:449) the golden ratio times
   2**128; LXM (lxm.pyx:233) and Xoshiro256 "2**(128 * iter)"; Xoroshiro128
   "2**(64 * iter)"; Xoshiro512 "2**(256 * iter)"; Xorshift1024
   (xorshift1024.pyx:217) "2**(512 * iter)". *)
From Verif Require Import Word Common Buffer32 Lcg Py Pcg PcgFacts LcgMixFacts PcgSeed.
From Verif Require Import Gf2 Xoshiro XoshiroFacts Xorshift1024Facts XorshiftFacts XoshiroLin PeriodXo Period512.
From Coq Require Import String.
Open Scope N_scope.
Ltac Zify.zify_post_hook ::= idtac.

(* -------------------------------------------------------------------- PCG *)
(* as documented, for every number of jumps *)
Theorem C55_pcg32_jump_length :
  forall iter t s, pcg32_wf s -> pcg32_wf t ->
  pcg32_jumped (Z.of_N iter) t s = (N.iter (iter * 11400714819323198486) pcg32_draw s, Ok tt).
Proof.
  intros iter t s Hs Ht. rewrite pcg32_jumped_spec by assumption.
  rewrite <- pcg32_advance_nat, N2Z.inj_mul by exact Hs. reflexivity.
Qed.
(* the length that jump() documents *)
Theorem C55_pcg64_jump_length :
  forall iter t s, pcg64_wf s -> pcg64_wf t ->
  pcg64_jumped (Z.of_N iter) t s = (reset32 (N.iter (iter * 210306068529402873165736369884012333108) pcg64_draw s), Ok tt).
Proof.
  intros iter t s Hs Ht. rewrite pcg64_jumped_spec by assumption.
  rewrite <- pcg64_advance_nat, N2Z.inj_mul by exact Hs. reflexivity.
Qed.
Theorem C55_dxsm_jump_length :
  forall iter t s, pcg64_wf s -> p_var (core s) = CmDxsm -> pcg64_wf t -> p_var (core t) = CmDxsm ->
  dxsm_jumped (Z.of_N iter) t s = (reset32 (N.iter (iter * 210306068529402873165736369884012333108) pcg64_draw s), Ok tt).
Proof.
  intros iter t s Hs Vs Ht Vt. rewrite dxsm_jumped_spec by assumption.
  rewrite <- pcg64_advance_nat, N2Z.inj_mul by exact Hs. reflexivity.
Qed.
Theorem C55_lcg128mix_jump_length :
  forall cfun (iter : Z) i q s, lcg_wf s -> lcg_out_ok s ->
  lcg_get (fst (lcg_jumped iter i q s)) =
  lcg_get (lcg_reset (N.iter (Z.to_N (iter * 210306068529402873165736369884012333108 mod 2 ^ 128)) (lcg_draw cfun) s)).
Proof.
  intros cfun iter i q s Hs Ho. pose proof (lcg_adv_draws cfun (iter * 210306068529402873165736369884012333108) s Hs) as A.
  unfold ndraws in A. change (2 ^ Z.of_N 128)%Z with (2 ^ 128)%Z in A. rewrite <- A. exact (proj1 (proj2 (lcg_jumped_spec iter i q s Hs Ho))).
Qed.
(* jumped() documents 2**64 draws for one jump: wrong in every generator with an
   odd increment *)
Theorem C55_pcg64_documented_jumped_refuted :
  forall s t, pcg64_wf s -> pcg64_wf t -> N.odd (p_inc (core s)) = true ->
  core (fst (pcg64_jumped 1 t s)) <> core (N.iter (2 ^ 64) pcg64_draw s).
Proof. exact pcg64_jump_doc. Qed.
Theorem C55_dxsm_documented_jumped_refuted :
  forall s t, pcg64_wf s -> p_var (core s) = CmDxsm -> pcg64_wf t -> p_var (core t) = CmDxsm -> N.odd (p_inc (core s)) = true ->
  core (fst (dxsm_jumped 1 t s)) <> core (N.iter (2 ^ 64) pcg64_draw s).
Proof.
  intros s t Hs Vs Ht Vt Ho. rewrite dxsm_jumped_spec by assumption. rewrite <- (pcg64_jumped_spec 1 t s) by assumption.
  now apply pcg64_jump_doc.
Qed.
Example C55_pcg_case : pcg64_wf (pcg64_seed CmDxsm 5 7) /\ p_var (core (pcg64_seed CmDxsm 5 7)) = CmDxsm /\
  N.odd (p_inc (core (pcg64_seed CmDxsm 5 7))) = true /\ pcg32_wf (pcg32_srandom 42 54) /\
  lcg_wf (lcg_new 3 5 false (inr 4) 10 20) /\ lcg_out_ok (lcg_new 3 5 false (inr 4) 10 20).
Proof. vm_compute. repeat split; discriminate. Qed.

(* -------------------------------------------------- LXM, Xorshift1024, ... *)
Theorem C55_lxm_jump_length :
  forall iter t s, lxm_wf s -> lxm_wf t ->
  lxm_jumped (Z.of_N iter) t s = (reset32 (N.iter (iter * 2 ^ 128) lxm_draw s), Ok tt).
Proof. intros iter t s Hs Ht. rewrite lxm_jumped_spec, lxm_jump_draws by (assumption || apply Hs). reflexivity. Qed.
Theorem C55_xorshift1024_jump_length :
  forall iter b, xs_ok (core b) ->
  xorshift1024_jump_inplace (Z.of_N iter) b = Some (Buf (N.iter (iter * 2 ^ 512) xs_draw (core b)) false 0).
Proof. exact xorshift1024_jump_inplace_draws. Qed.
(* two jumps are not 2**(128 * 2), 2**(512 * 2) draws: after so many draws the
   words of the xorshift part are different *)
Lemma lxm_x_distinct s i j : lxmc_wf (core s) -> v4_words (lx_x (core s)) <> [0;0;0;0] ->
  (lx_x (core (N.iter i lxm_draw s)) = lx_x (core (N.iter j lxm_draw s)) <-> i mod (2 ^ 256 - 1) = j mod (2 ^ 256 - 1)).
Proof.
  intros (Hx & _) Hz. rewrite !lxm_draws. cbn [core lx_x]. exact (xo256_distinct (lx_x (core s)) i j Hx (v4_nz _ Hz)).
Qed.
Lemma core_draws_reset_lxm n b : core (N.iter n lxm_draw (reset32 b)) = core (N.iter n lxm_draw b).
Proof. now rewrite !lxm_draws. Qed.
Lemma lxm_jump_not k e t s : lxm_wf s -> lxm_wf t -> v4_words (lx_x (core s)) <> [0;0;0;0] ->
  (k * 2 ^ 128) mod (2 ^ 256 - 1) <> e mod (2 ^ 256 - 1) -> core (fst (lxm_jumped (Z.of_N k) t s)) <> core (N.iter e lxm_draw s).
Proof.
  intros Hs Ht Hz Hne E. rewrite lxm_jumped_spec, lxm_jump_draws in E by (assumption || apply Hs).
  cbn [fst] in E. apply (f_equal lx_x) in E. apply Hne, (lxm_x_distinct s); [apply Hs|exact Hz|exact E].
Qed.
Lemma xs_jump_not k e b b' : xs_ok (core b) -> xs_s (core b) <> repeat 0 16 -> xorshift1024_jump_inplace (Z.of_N k) b = Some b' ->
  (k * 2 ^ 512) mod (2 ^ 1024 - 1) <> e mod (2 ^ 1024 - 1) -> wl (core b') <> wl (N.iter e xs_draw (core b)).
Proof.
  intros Hb Hz J Hne E. rewrite xorshift1024_jump_inplace_draws in J by exact Hb. injection J as J. rewrite <- J in E.
  cbn [core] in E. apply xs_window_period in E; [|assumption..]. now apply Hne.
Qed.
Theorem C55_lxm_documented_jumped_refuted :
  forall t s, lxm_wf s -> lxm_wf t -> v4_words (lx_x (core s)) <> [0;0;0;0] ->
  core (fst (lxm_jumped (Z.of_N 2) t s)) <> core (N.iter (2 ^ (128 * 2)) lxm_draw s).
Proof. intros t s Hs Ht Hz. apply lxm_jump_not; try assumption. vm_compute. discriminate. Qed.
Theorem C55_xorshift1024_documented_jumped_refuted :
  forall b b', xs_ok (core b) -> xs_s (core b) <> repeat 0 16 -> xorshift1024_jump_inplace (Z.of_N 2) b = Some b' ->
  wl (core b') <> wl (N.iter (2 ^ (512 * 2)) xs_draw (core b)).
Proof. intros b b' Hb Hz J. apply (xs_jump_not 2 _ b b' Hb Hz J). vm_compute. discriminate. Qed.

(* ------------------------------------------------------------------- C77 *)
Theorem C77_lxm_jumped_streams_disjoint :
  forall s t u i j n m, lxm_wf s -> lxm_wf t -> lxm_wf u -> v4_words (lx_x (core s)) <> [0;0;0;0] ->
  i < 2 ^ 128 - 1 -> j < 2 ^ 128 - 1 -> n < 2 ^ 128 -> m < 2 ^ 128 ->
  core (N.iter n lxm_draw (fst (lxm_jumped (Z.of_N i) t s))) = core (N.iter m lxm_draw (fst (lxm_jumped (Z.of_N j) u s))) ->
  i = j /\ n = m.
Proof.
  intros s t u i j n m Hs Ht Hu Hz Hi Hj Hn Hm E. rewrite !lxm_jumped_spec, !lxm_jump_draws in E by (assumption || apply Hs).
  cbn [fst] in E. rewrite !core_draws_reset_lxm, <- !Niter_add in E. apply (f_equal lx_x) in E.
  apply lxm_x_distinct in E; [|apply Hs|exact Hz]. apply (stream_index_inj (2 ^ 128) (2 ^ 256 - 1)) in E; lia.
Qed.
Lemma room512 i : i < 2 ^ 512 - 1 -> i * 2 ^ 512 + 2 ^ 512 <= 2 ^ 1024 - 1.
Proof.
  intros H. apply N.le_trans with ((2 ^ 512 - 1) * 2 ^ 512); [|intros E; vm_compute in E; discriminate E].
  rewrite <- N.mul_succ_l. apply N.mul_le_mono_r, N.le_succ_l, H.
Qed.
Theorem C77_xorshift1024_jumped_streams_disjoint :
  forall b i j n m b1 b2, xs_ok (core b) -> xs_s (core b) <> repeat 0 16 ->
  i < 2 ^ 512 - 1 -> j < 2 ^ 512 - 1 -> n < 2 ^ 512 -> m < 2 ^ 512 ->
  xorshift1024_jump_inplace (Z.of_N i) b = Some b1 -> xorshift1024_jump_inplace (Z.of_N j) b = Some b2 ->
  wl (N.iter n xs_draw (core b1)) = wl (N.iter m xs_draw (core b2)) -> i = j /\ n = m.
Proof.
  intros b i j n m b1 b2 Hb Hz Hi Hj Hn Hm J1 J2 E. rewrite xorshift1024_jump_inplace_draws in J1, J2 by exact Hb.
  injection J1 as <-. injection J2 as <-. cbn [core] in E. rewrite <- !Niter_add in E.
  apply xs_window_period in E; [|assumption..]. exact (stream_index_inj _ _ i j n m Hn Hm (room512 i Hi) (room512 j Hj) E).
Qed.
Example C77_lin_case : exists s b, lxm_wf s /\ v4_words (lx_x (core s)) <> [0;0;0;0] /\ xs_ok (core b) /\ xs_s (core b) <> repeat 0 16 /\
  exists b1, xorshift1024_jump_inplace 1 b = Some b1 /\ wl (core b1) <> wl (core b).
Proof.
  exists (Buf (LX (V4 1 2 3 4) 5 7) true 9), (Buf (XS [1;2;3;4;5;6;7;8;9;10;11;12;13;14;15;16] 5) true 77).
  split; [vm_compute; repeat split; reflexivity|]. split; [vm_compute; discriminate|].
  split; [split; [reflexivity|split; [repeat constructor|split; [discriminate|reflexivity]]]|]. split; [vm_compute; discriminate|].
  eexists. split; [vm_compute; reflexivity|]. vm_compute. discriminate.
Qed.

Print Assumptions C55_pcg32_jump_length.
Print Assumptions C55_pcg64_jump_length.
Print Assumptions C55_dxsm_jump_length.
Print Assumptions C55_lcg128mix_jump_length.
Print Assumptions C55_pcg64_documented_jumped_refuted.
Print Assumptions C55_dxsm_documented_jumped_refuted.
Print Assumptions C55_lxm_jump_length.
Print Assumptions C55_xorshift1024_jump_length.
Print Assumptions C55_lxm_documented_jumped_refuted.
Print Assumptions C55_xorshift1024_documented_jumped_refuted.
Print Assumptions C77_lxm_jumped_streams_disjoint.
Print Assumptions C77_xorshift1024_jumped_streams_disjoint.
