(* Properties of Xoshiro256, Xoshiro512, Xoroshiro128 (both variants),
   Xorshift1024 and LXM.

   *_draw is the state after one call of next_uint64 (one element of
   random_raw); reset32 drops the buffered 32-bit half, nothing else. The
   argument t of jumped is the new instance, before its state is assigned. *)
From Verif Require Import Word Buffer32 Gf2 Lcg Py Xoshiro XoshiroFacts Xorshift1024Facts XorshiftFacts.
From Verif Require Import XoshiroLin PeriodXo Period512.
From Coq Require Import String.
Open Scope N_scope.

Definition ex256 : xoshiro256 := Buf (V4 1 2 3 4) true 77.
Definition ex512 : xoshiro512 := Buf (V8 1 2 3 4 5 6 7 0xffffffffffffffff) true 77.
Definition ex128 (pp : bool) : xoroshiro128 := Buf (XC (V2 1 2) pp) true 77.
Definition exlxm : lxm := Buf (LX (V4 1 2 3 4) 5 3037000493) true 77.
Definition ex1024 : xsc := XS [1;2;3;4;5;6;7;8;9;10;11;12;13;14;15;16] 5.

(* ------------------------------------------------------------------ C10 *)
Theorem C10_xoshiro256_jumped :
  forall k t s, xoshiro256_wf s -> xoshiro256_wf t ->
  xoshiro256_jumped (Z.of_N k) t s = (reset32 (N.iter (k * 2 ^ 128) xoshiro256_draw s), Ok tt).
Proof. intros k t s Hs Ht. rewrite xoshiro256_jumped_spec, xoshiro256_jump_draws by (assumption || apply Hs). reflexivity. Qed.
Theorem C10_xoshiro256_jump_inplace :
  forall k s, v4_wf (core s) ->
  xoshiro256_jump_inplace (Z.of_N k) s = reset32 (N.iter (k * 2 ^ 128) xoshiro256_draw s).
Proof. exact xoshiro256_jump_draws. Qed.
(* the exact period, from every non-zero state *)
Theorem C10_xoshiro256_period :
  forall s i j, v4_wf (core s) -> v4_words (core s) <> [0;0;0;0] ->
  (N.iter i xoshiro256_draw s = N.iter j xoshiro256_draw s <-> i mod (2 ^ 256 - 1) = j mod (2 ^ 256 - 1)).
Proof. exact xoshiro256_distinct. Qed.
(* fewer than 2^128 draws from fewer than 2^128 - 1 jumped generators never meet *)
Theorem C10_xoshiro256_jumped_streams_disjoint :
  forall s i j n m, v4_wf (core s) -> v4_words (core s) <> [0;0;0;0] ->
  i < 2 ^ 128 - 1 -> j < 2 ^ 128 - 1 -> n < 2 ^ 128 -> m < 2 ^ 128 ->
  core (N.iter n xoshiro256_draw (xoshiro256_jump_inplace (Z.of_N i) s)) =
  core (N.iter m xoshiro256_draw (xoshiro256_jump_inplace (Z.of_N j) s)) -> i = j /\ n = m.
Proof.
  intros s i j n m Hs Hz Hi Hj Hn Hm.
  exact (streams_disjoint xoshiro256_next v4_wf xoshiro256_jump (2 ^ 128) (2 ^ 256 - 1) s
           xoshiro256_jump_steps xoshiro256_step_wf Hs (fun i j => xoshiro256_distinct s i j Hs Hz) i j n m
           (streams_side i (2 ^ 128) _ eq_refl eq_refl Hi) (streams_side j (2 ^ 128) _ eq_refl eq_refl Hj) Hn Hm).
Qed.
(* xoshiro256.pyx:216-217 documents jumped(iter) as 2**(128 * iter) draws: it is
   not, already for iter = 2 and from every non-zero state *)
Theorem C10_xoshiro256_jumped_docstring_refuted :
  forall s, v4_wf (core s) -> v4_words (core s) <> [0;0;0;0] ->
  xoshiro256_jump_inplace (Z.of_N 2) s <> reset32 (N.iter (2 ^ (128 * 2)) xoshiro256_draw s).
Proof.
  intros s Hs Hz.
  refine (jump_not xoshiro256_next v4_wf xoshiro256_jump (2 ^ 128) (2 ^ 256 - 1) s
           xoshiro256_jump_steps xoshiro256_step_wf Hs (fun i j => xoshiro256_distinct s i j Hs Hz) 2 _ _).
  vm_compute. discriminate.
Qed.
Example C10_case : xoshiro256_wf ex256 /\ v4_words (core ex256) <> [0;0;0;0] /\
  xoshiro256_jump_inplace 1 ex256 <> xoshiro256_jump_inplace 2 ex256.
Proof. vm_compute. repeat split; discriminate. Qed.

(* ------------------------------------------------------------------ C11 *)
Theorem C11_xoshiro512_jumped :
  forall k t s, xoshiro512_wf s -> xoshiro512_wf t ->
  xoshiro512_jumped (Z.of_N k) t s = (reset32 (N.iter (k * 2 ^ 256) xoshiro512_draw s), Ok tt).
Proof. intros k t s Hs Ht. rewrite xoshiro512_jumped_spec, xoshiro512_jump_draws by (assumption || apply Hs). reflexivity. Qed.
Theorem C11_xoshiro512_jump_inplace :
  forall k s, v8_wf (core s) ->
  xoshiro512_jump_inplace (Z.of_N k) s = reset32 (N.iter (k * 2 ^ 256) xoshiro512_draw s).
Proof. exact xoshiro512_jump_draws. Qed.
Theorem C11_xoshiro512_period :
  forall s i j, v8_wf (core s) -> v8_words (core s) <> [0;0;0;0;0;0;0;0] ->
  (N.iter i xoshiro512_draw s = N.iter j xoshiro512_draw s <-> i mod (2 ^ 512 - 1) = j mod (2 ^ 512 - 1)).
Proof. exact xoshiro512_distinct. Qed.
Theorem C11_xoshiro512_jumped_streams_disjoint :
  forall s i j n m, v8_wf (core s) -> v8_words (core s) <> [0;0;0;0;0;0;0;0] ->
  i < 2 ^ 256 - 1 -> j < 2 ^ 256 - 1 -> n < 2 ^ 256 -> m < 2 ^ 256 ->
  core (N.iter n xoshiro512_draw (xoshiro512_jump_inplace (Z.of_N i) s)) =
  core (N.iter m xoshiro512_draw (xoshiro512_jump_inplace (Z.of_N j) s)) -> i = j /\ n = m.
Proof.
  intros s i j n m Hs Hz Hi Hj Hn Hm.
  exact (streams_disjoint xoshiro512_next v8_wf xoshiro512_jump (2 ^ 256) (2 ^ 512 - 1) s
           xoshiro512_jump_steps xoshiro512_step_wf Hs (fun i j => xoshiro512_distinct s i j Hs Hz) i j n m
           (streams_side i (2 ^ 256) _ eq_refl eq_refl Hi) (streams_side j (2 ^ 256) _ eq_refl eq_refl Hj) Hn Hm).
Qed.
(* xoshiro512.pyx:214: "2**(256 * iter) random numbers" *)
Theorem C11_xoshiro512_jumped_docstring_refuted :
  forall s, v8_wf (core s) -> v8_words (core s) <> [0;0;0;0;0;0;0;0] ->
  xoshiro512_jump_inplace (Z.of_N 2) s <> reset32 (N.iter (2 ^ (256 * 2)) xoshiro512_draw s).
Proof.
  intros s Hs Hz.
  refine (jump_not xoshiro512_next v8_wf xoshiro512_jump (2 ^ 256) (2 ^ 512 - 1) s
           xoshiro512_jump_steps xoshiro512_step_wf Hs (fun i j => xoshiro512_distinct s i j Hs Hz) 2 _ _).
  vm_compute. discriminate.
Qed.
Example C11_case : xoshiro512_wf ex512 /\ v8_words (core ex512) <> [0;0;0;0;0;0;0;0] /\
  xoshiro512_jump_inplace 1 ex512 <> xoshiro512_jump_inplace 2 ex512.
Proof. vm_compute. repeat split; discriminate. Qed.

(* ------------------------------------------------------------------ C12 *)
Theorem C12_xoroshiro128_jumped :
  forall k t s, xoroshiro128_wf s -> xoroshiro128_wf t ->
  xoroshiro128_jumped (Z.of_N k) t s = (reset32 (N.iter (k * 2 ^ 64) xoroshiro128_draw s), Ok tt).
Proof. intros k t s Hs Ht. rewrite xoroshiro128_jumped_spec, xoroshiro128_jump_draws by (assumption || apply Hs). reflexivity. Qed.
Theorem C12_xoroshiro128_jump_inplace :
  forall k s, v2_wf (xo_s (core s)) ->
  xoroshiro128_jump_inplace (Z.of_N k) s = reset32 (N.iter (k * 2 ^ 64) xoroshiro128_draw s).
Proof. exact xoroshiro128_jump_draws. Qed.
Theorem C12_xoroshiro128_period :
  forall s i j, v2_wf (xo_s (core s)) -> v2_words (xo_s (core s)) <> [0;0] ->
  (N.iter i xoroshiro128_draw s = N.iter j xoroshiro128_draw s <-> i mod (2 ^ 128 - 1) = j mod (2 ^ 128 - 1)).
Proof. exact xoroshiro128_distinct. Qed.
Theorem C12_xoroshiro128_jumped_streams_disjoint :
  forall s i j n m, v2_wf (xo_s (core s)) -> v2_words (xo_s (core s)) <> [0;0] ->
  i < 2 ^ 64 - 1 -> j < 2 ^ 64 - 1 -> n < 2 ^ 64 -> m < 2 ^ 64 ->
  core (N.iter n xoroshiro128_draw (xoroshiro128_jump_inplace (Z.of_N i) s)) =
  core (N.iter m xoroshiro128_draw (xoroshiro128_jump_inplace (Z.of_N j) s)) -> i = j /\ n = m.
Proof.
  intros s i j n m Hs Hz Hi Hj Hn Hm.
  exact (streams_disjoint xoroc_next xoroc_wf xoroc_jump (2 ^ 64) (2 ^ 128 - 1) s
           (xoroc_jump_steps_gen (2 ^ 64) xoroshiro_jump_steps) xoroc_step_wf Hs (fun i j => xoroshiro128_distinct s i j Hs Hz) i j n m
           (streams_side i (2 ^ 64) _ eq_refl eq_refl Hi) (streams_side j (2 ^ 64) _ eq_refl eq_refl Hj) Hn Hm).
Qed.
(* xoroshiro128.pyx:241: "2**(64 * iter) random numbers" *)
Theorem C12_xoroshiro128_jumped_docstring_refuted :
  forall s, v2_wf (xo_s (core s)) -> v2_words (xo_s (core s)) <> [0;0] ->
  xoroshiro128_jump_inplace (Z.of_N 2) s <> reset32 (N.iter (2 ^ (64 * 2)) xoroshiro128_draw s).
Proof.
  intros s Hs Hz.
  refine (jump_not xoroc_next xoroc_wf xoroc_jump (2 ^ 64) (2 ^ 128 - 1) s
           (xoroc_jump_steps_gen (2 ^ 64) xoroshiro_jump_steps) xoroc_step_wf Hs (fun i j => xoroshiro128_distinct s i j Hs Hz) 2 _ _).
  vm_compute. discriminate.
Qed.
Example C12_case : forall pp, xoroshiro128_wf (ex128 pp) /\ v2_words (xo_s (core (ex128 pp))) <> [0;0] /\
  xoroshiro128_jump_inplace 1 (ex128 pp) <> xoroshiro128_jump_inplace 2 (ex128 pp).
Proof. intros []; vm_compute; repeat split; discriminate. Qed.

(* ------------------------------------------------------------------ C13 *)
(* defined (no out-of-bounds access) and equal to k * 2^512 draws *)
Theorem C13_xorshift1024_jump_inplace :
  forall k b, xs_ok (core b) ->
  xorshift1024_jump_inplace (Z.of_N k) b = Some (Buf (N.iter (k * 2 ^ 512) xs_draw (core b)) false 0).
Proof. exact xorshift1024_jump_inplace_draws. Qed.
(* the 16-word window, which determines every later value, repeats exactly every
   2^1024 - 1 draws *)
Theorem C13_xorshift1024_period :
  forall c i j, xs_ok c -> xs_s c <> repeat 0 16 ->
  (wl (N.iter i xs_draw c) = wl (N.iter j xs_draw c) <-> i mod (2 ^ 1024 - 1) = j mod (2 ^ 1024 - 1)).
Proof. exact xs_window_period. Qed.
Theorem C13_xorshift1024_value_from_window :
  forall c d, xs_ok c -> xs_ok d -> wl c = wl d ->
  option_map snd (xorshift1024_next c) = option_map snd (xorshift1024_next d).
Proof. exact xs_out_window. Qed.
Theorem C13_xorshift1024_state_period :
  forall c k, xs_ok c -> xs_s c <> repeat 0 16 ->
  (N.iter k xs_draw c = c <-> k mod ((2 ^ 1024 - 1) * 16) = 0).
Proof. exact xs_state_period. Qed.
Lemma ex1024_ok : xs_ok ex1024.
Proof. split; [reflexivity|split; [repeat constructor|split; [discriminate|reflexivity]]]. Qed.
Lemma ex1024_wf : xorshift1024_wf (Buf ex1024 true 77).
Proof. split; [reflexivity|split; [repeat constructor|split; [split; [discriminate|reflexivity]|reflexivity]]]. Qed.
Example C13_case : xs_ok ex1024 /\ xs_s ex1024 <> repeat 0 16 /\ xs_draw ex1024 <> ex1024.
Proof. split; [exact ex1024_ok|]. vm_compute. split; discriminate. Qed.

(* ------------------------------------------------------------------ C14 *)
Theorem C14_lxm_jumped :
  forall k t s, lxm_wf s -> lxm_wf t ->
  lxm_jumped (Z.of_N k) t s = (reset32 (N.iter (k * 2 ^ 128) lxm_draw s), Ok tt).
Proof. intros k t s Hs Ht. rewrite lxm_jumped_spec, lxm_jump_draws by (assumption || apply Hs). reflexivity. Qed.
Theorem C14_lxm_jump_inplace :
  forall k s, lxmc_wf (core s) ->
  lxm_jump_inplace (Z.of_N k) s = reset32 (N.iter (k * 2 ^ 128) lxm_draw s).
Proof. exact lxm_jump_draws. Qed.
Theorem C14_lxm_period :
  forall s k, lxmc_wf (core s) -> v4_words (lx_x (core s)) <> [0;0;0;0] -> N.odd (lx_b (core s)) = true ->
  (N.iter k lxm_draw s = s <-> k mod ((2 ^ 256 - 1) * 2 ^ 64) = 0).
Proof. exact lxm_period. Qed.
Example C14_case : lxm_wf exlxm /\ v4_words (lx_x (core exlxm)) <> [0;0;0;0] /\ N.odd (lx_b (core exlxm)) = true.
Proof. vm_compute. repeat split; discriminate. Qed.

(* ------------------------------------------------------------------ C17 *)
(* a negative or zero iter only empties the half-word buffer *)
Theorem C17_xoshiro256_negative_iter : forall k s, (k <= 0)%Z -> xoshiro256_jump_inplace k s = reset32 s.
Proof. intros k s. exact (jump_buf_neg xoshiro256_jump k s). Qed.
Theorem C17_xoshiro256_jump_composes : forall i j s, (0 <= i)%Z -> (0 <= j)%Z ->
  xoshiro256_jump_inplace j (xoshiro256_jump_inplace i s) = xoshiro256_jump_inplace (i + j) s.
Proof. intros i j s. exact (jump_buf_add xoshiro256_jump i j s). Qed.
Theorem C17_xoshiro512_jump_composes : forall i j s, (0 <= i)%Z -> (0 <= j)%Z ->
  xoshiro512_jump_inplace j (xoshiro512_jump_inplace i s) = xoshiro512_jump_inplace (i + j) s.
Proof. intros i j s. exact (jump_buf_add xoshiro512_jump i j s). Qed.
Theorem C17_xoroshiro128_jump_composes : forall i j s, (0 <= i)%Z -> (0 <= j)%Z ->
  xoroshiro128_jump_inplace j (xoroshiro128_jump_inplace i s) = xoroshiro128_jump_inplace (i + j) s.
Proof. intros i j s. exact (jump_buf_add xoroc_jump i j s). Qed.
Theorem C17_lxm_jump_composes : forall i j s, (0 <= i)%Z -> (0 <= j)%Z ->
  lxm_jump_inplace j (lxm_jump_inplace i s) = lxm_jump_inplace (i + j) s.
Proof. intros i j s. exact (jump_buf_add lxm_jump i j s). Qed.
Theorem C17_xorshift1024_jump_composes : forall i j b, (0 <= i)%Z -> (0 <= j)%Z -> xs_ok (core b) ->
  exists b', xorshift1024_jump_inplace i b = Some b' /\ xorshift1024_jump_inplace j b' = xorshift1024_jump_inplace (i + j) b.
Proof. exact xorshift1024_jump_add. Qed.
(* with a negative iter accepted (npy_intp), composition fails *)
Theorem C17_jump_composes_negative_refuted :
  exists s, v4_wf (core s) /\
  xoshiro256_jump_inplace (-1) (xoshiro256_jump_inplace 1 s) <> xoshiro256_jump_inplace (1 + -1) s.
Proof. exists ex256. vm_compute. repeat split; discriminate. Qed.

(* ------------------------------------------------------------------ C18 *)
Theorem C18_xoshiro256_restores : restores xoshiro256_wf xoshiro256_get xoshiro256_set.
Proof. exact xoshiro256_restores. Qed.
Theorem C18_xoshiro512_restores : restores xoshiro512_wf xoshiro512_get xoshiro512_set.
Proof. exact xoshiro512_restores. Qed.
Theorem C18_xoroshiro128_restores : restores xoroshiro128_wf xoroshiro128_get xoroshiro128_set.
Proof. exact xoroshiro128_restores. Qed.
Theorem C18_xorshift1024_restores : restores xorshift1024_wf xorshift1024_get xorshift1024_set.
Proof. exact xorshift1024_restores. Qed.
Theorem C18_lxm_restores : restores lxm_wf lxm_get lxm_set.
Proof. exact lxm_restores. Qed.
Example C18_xoshiro_case :
  xoshiro256_wf ex256 /\ xoshiro512_wf ex512 /\ xoroshiro128_wf (ex128 true) /\ lxm_wf exlxm /\
  xoshiro256_set (xoshiro256_get ex256) (xoshiro256_seed [9;8;7;6]) = (ex256, Ok tt).
Proof. vm_compute. repeat split. Qed.

(* ------------------------------------------------------------------ C19 *)
(* a dictionary with a good "s" and a bad "uinteger" is rejected with an
   exception, but the state words have been overwritten already *)
Definition bad_half (fqn : string) (fields : list (string * pyval)) : pyval :=
  PDict (("bit_generator", PStr fqn) :: fields ++ [("has_uint32", PInt 0); ("uinteger", PInt (-1))])%string.
Theorem C19_xoshiro256_atomic_refuted : ~ atomic xoshiro256_set.
Proof.
  intros H. specialize (H (bad_half "Xoshiro256" [("s", PArr 64 [5;6;7;8])]%string) ex256 (Buf (V4 5 6 7 8) false 77) OverflowError eq_refl).
  discriminate.
Qed.
Theorem C19_xoshiro512_atomic_refuted : ~ atomic xoshiro512_set.
Proof.
  intros H. specialize (H (bad_half "Xoshiro512" [("s", PArr 64 [5;6;7;8;9;10;11;12])]%string) ex512 (Buf (V8 5 6 7 8 9 10 11 12) false 77) OverflowError eq_refl).
  discriminate.
Qed.
Theorem C19_xoroshiro128_atomic_refuted : ~ atomic xoroshiro128_set.
Proof.
  intros H. specialize (H (bad_half "Xoroshiro128" [("s", PArr 64 [5;6])]%string) (ex128 true) (Buf (XC (V2 5 6) true) false 77) OverflowError eq_refl).
  discriminate.
Qed.
Theorem C19_xorshift1024_atomic_refuted : ~ atomic xorshift1024_set.
Proof.
  intros H. specialize (H (bad_half "Xorshift1024" [("state", PDict [("s", PArr 64 (repeat 5 16)); ("p", PInt 3)])]%string)
    (Buf ex1024 true 77) (Buf (XS (repeat 5 16) 3) false 77) OverflowError eq_refl).
  discriminate.
Qed.
Theorem C19_lxm_atomic_refuted : ~ atomic lxm_set.
Proof.
  intros H. specialize (H (bad_half "LXM" [("state", PDict [("x", PArr 64 [5;6;7;8]); ("lcg_state", PInt 1); ("b", PInt 3)])]%string)
    exlxm (Buf (LX (V4 5 6 7 8) 1 3) false 77) OverflowError eq_refl).
  discriminate.
Qed.

(* ------------------------------------------------------------------ C20 *)
(* Xorshift1024: in bounds for as many draws as you like once 0 <= p < 16 *)
Theorem C20_xorshift1024_in_bounds :
  forall n c, xs_ok c -> xorshift1024_next (N.iter n xs_draw c) <> None.
Proof. intros n c H E. destruct (xs_next_total _ (xs_draws_ok n c H)) as (c' & o & E'). rewrite E in E'. discriminate. Qed.
Theorem C20_xorshift1024_seeded_in_bounds :
  forall words, List.length words = 16%nat -> Forall (wf 64) words -> xs_ok (core (xorshift1024_new words)).
Proof. intros words Hl Hf. repeat split; (assumption || discriminate || reflexivity). Qed.
(* but the setter accepts any C int for p *)
Theorem C20_xorshift1024_setter_refuted :
  exists v s s', xorshift1024_wf s /\ xorshift1024_set v s = (s', Ok tt) /\ xorshift1024_next (core s') = None.
Proof.
  exists (PDict [("bit_generator", PStr "Xorshift1024"); ("state", PDict [("s", PArr 64 (repeat 5 16)); ("p", PInt 16)]);
                 ("has_uint32", PInt 0); ("uinteger", PInt 0)]%string), (Buf ex1024 true 77), (Buf (XS (repeat 5 16) 16) false 0).
  split; [exact ex1024_wf|]. vm_compute. split; reflexivity.
Qed.

(* ------------------------------------------------------------------ C21 *)
Theorem C21_lxm_seed_history : forall words s t,
  lx_b (core s) = lx_b (core t) -> lxm_seed words s = lxm_seed words t.
Proof. intros words s t E. unfold lxm_seed. now rewrite E. Qed.
(* Xorshift1024.seed keeps the circular index: after one draw, seeding does not
   give the stream of a new generator *)
Theorem C21_xorshift1024_seed_history_refuted :
  exists words b, xorshift1024_wf b /\
  option_map snd (xorshift1024_next (core (xorshift1024_seed words b))) <>
  option_map snd (xorshift1024_next (core (xorshift1024_new words))).
Proof.
  exists (xs_s ex1024), (Buf ex1024 true 77). split; [exact ex1024_wf|]. vm_compute. discriminate.
Qed.

(* ------------------------------------------------------------------ C24 *)
Theorem C24_xoshiro256_no_merge : forall n b c, v4_wf (core b) -> v4_wf (core c) ->
  N.iter n xoshiro256_draw b = N.iter n xoshiro256_draw c -> b = c.
Proof. exact xoshiro256_draws_inj. Qed.
Theorem C24_xoshiro512_no_merge : forall n b c, v8_wf (core b) -> v8_wf (core c) ->
  N.iter n xoshiro512_draw b = N.iter n xoshiro512_draw c -> b = c.
Proof. exact xoshiro512_draws_inj. Qed.
Theorem C24_xoroshiro128_no_merge : forall n b c, v2_wf (xo_s (core b)) -> v2_wf (xo_s (core c)) ->
  N.iter n xoroshiro128_draw b = N.iter n xoroshiro128_draw c -> b = c.
Proof. exact xoroshiro128_draws_inj. Qed.
Theorem C24_xorshift1024_no_merge : forall n c d, xs_ok c -> xs_ok d ->
  N.iter n xs_draw c = N.iter n xs_draw d -> c = d.
Proof. exact xs_draws_inj. Qed.
Theorem C24_lxm_no_merge : forall n b c, lxmc_wf (core b) -> lxmc_wf (core c) ->
  N.iter n lxm_draw b = N.iter n lxm_draw c -> b = c.
Proof. exact lxm_draws_inj. Qed.

(* ------------------------------------------------------------------ C26 *)
Theorem C26_xoshiro256_never_zero : forall ops s, v4_wf (core s) -> v4_words (core s) <> [0;0;0;0] ->
  v4_words (core (fold_left (do_op xoshiro256_next xoshiro256_jump) ops s)) <> [0;0;0;0].
Proof. exact xoshiro256_ops_nonzero. Qed.
Theorem C26_xoshiro512_never_zero : forall ops s, v8_wf (core s) -> v8_words (core s) <> [0;0;0;0;0;0;0;0] ->
  v8_words (core (fold_left (do_op xoshiro512_next xoshiro512_jump) ops s)) <> [0;0;0;0;0;0;0;0].
Proof. exact xoshiro512_ops_nonzero. Qed.
Theorem C26_xoroshiro128_never_zero : forall ops s, v2_wf (xo_s (core s)) -> v2_words (xo_s (core s)) <> [0;0] ->
  v2_words (xo_s (core (fold_left (do_op xoroc_next xoroc_jump) ops s))) <> [0;0].
Proof. exact xoroshiro128_ops_nonzero. Qed.
(* for Xorshift1024 a jump is a number of draws (C13), so draws suffice *)
Theorem C26_xorshift1024_never_zero : forall n c, xs_ok c -> xs_s c <> repeat 0 16 ->
  xs_s (N.iter n xs_draw c) <> repeat 0 16.
Proof. exact xs_nonzero. Qed.
Theorem C26_lxm_never_zero : forall ops s, lxmc_wf (core s) -> v4_words (lx_x (core s)) <> [0;0;0;0] ->
  v4_words (lx_x (core (fold_left (do_op lxm_next lxm_jump) ops s))) <> [0;0;0;0].
Proof. exact lxm_ops_nonzero. Qed.
(* LXM's seeding refuses all-zero words *)
Theorem C26_lxm_seed_nonzero : forall b words s, List.length words = 5%nat -> lxm_new b words = Some s ->
  v4_words (lx_x (core s)) <> [0;0;0;0].
Proof.
  intros b words s Hl. unfold lxm_new, lxm_seed.
  destruct (fold_left N.lor (firstn 4 words) 0 =? 0) eqn:E; [discriminate|]. intros [= <-]. cbn.
  destruct words as [|w0 [|w1 [|w2 [|w3 ?]]]]; try discriminate. cbn. intros [= -> -> -> ->]. discriminate.
Qed.

(* ------------------------------------------------------------------ C27 *)
Theorem C27_lxm_no_short_cycle : forall s k, lxmc_wf (core s) -> N.odd (lx_b (core s)) = true ->
  N.iter k lxm_draw s = s -> k mod 2 ^ 64 = 0.
Proof. exact lxm_no_short_cycle. Qed.
(* every constructed LXM has an odd additive constant, but a state dictionary can
   bring an even one, and then the all-zero xorshift part is a fixed point *)
Theorem C27_lxm_new_odd : forall b words s, lxm_new b words = Some s -> N.odd (lx_b (core s)) = true.
Proof.
  intros b words s. unfold lxm_new. destruct (lxm_seed words _) as [s0|]; [|discriminate].
  intros [= <-]. cbn. rewrite <- N.bit0_odd, N.lor_spec. apply orb_true_r.
Qed.
Theorem C27_lxm_setter_refuted : exists v s s', lxm_wf s /\ lxm_set v s = (s', Ok tt) /\ lxm_draw s' = s'.
Proof.
  exists (PDict [("bit_generator", PStr "LXM"); ("state", PDict [("x", PArr 64 [0;0;0;0]); ("lcg_state", PInt 0); ("b", PInt 0)]);
                 ("has_uint32", PInt 0); ("uinteger", PInt 0)]%string), exlxm, (Buf (LX (V4 0 0 0 0) 0 0) false 0).
  vm_compute. repeat split.
Qed.

(* ------------------------------------------------------------------ C49 *)
Theorem C49_murmur_hash3_injective : forall a b, wf 64 a -> wf 64 b -> murmur_hash3 a = murmur_hash3 b -> a = b.
Proof. exact murmur_hash3_inj. Qed.

Print Assumptions C10_xoshiro256_jumped.
Print Assumptions C10_xoshiro256_jump_inplace.
Print Assumptions C10_xoshiro256_period.
Print Assumptions C10_xoshiro256_jumped_streams_disjoint.
Print Assumptions C10_xoshiro256_jumped_docstring_refuted.
Print Assumptions C11_xoshiro512_jumped.
Print Assumptions C11_xoshiro512_jump_inplace.
Print Assumptions C11_xoshiro512_period.
Print Assumptions C11_xoshiro512_jumped_streams_disjoint.
Print Assumptions C11_xoshiro512_jumped_docstring_refuted.
Print Assumptions C12_xoroshiro128_jumped.
Print Assumptions C12_xoroshiro128_jump_inplace.
Print Assumptions C12_xoroshiro128_period.
Print Assumptions C12_xoroshiro128_jumped_streams_disjoint.
Print Assumptions C12_xoroshiro128_jumped_docstring_refuted.
Print Assumptions C13_xorshift1024_jump_inplace.
Print Assumptions C13_xorshift1024_period.
Print Assumptions C13_xorshift1024_value_from_window.
Print Assumptions C13_xorshift1024_state_period.
Print Assumptions C14_lxm_jumped.
Print Assumptions C14_lxm_jump_inplace.
Print Assumptions C14_lxm_period.
Print Assumptions C17_xoshiro256_negative_iter.
Print Assumptions C17_xoshiro256_jump_composes.
Print Assumptions C17_xoshiro512_jump_composes.
Print Assumptions C17_xoroshiro128_jump_composes.
Print Assumptions C17_lxm_jump_composes.
Print Assumptions C17_xorshift1024_jump_composes.
Print Assumptions C17_jump_composes_negative_refuted.
Print Assumptions C18_xoshiro256_restores.
Print Assumptions C18_xoshiro512_restores.
Print Assumptions C18_xoroshiro128_restores.
Print Assumptions C18_xorshift1024_restores.
Print Assumptions C18_lxm_restores.
Print Assumptions C19_xoshiro256_atomic_refuted.
Print Assumptions C19_xoshiro512_atomic_refuted.
Print Assumptions C19_xoroshiro128_atomic_refuted.
Print Assumptions C19_xorshift1024_atomic_refuted.
Print Assumptions C19_lxm_atomic_refuted.
Print Assumptions C20_xorshift1024_in_bounds.
Print Assumptions C20_xorshift1024_seeded_in_bounds.
Print Assumptions C20_xorshift1024_setter_refuted.
Print Assumptions C21_lxm_seed_history.
Print Assumptions C21_xorshift1024_seed_history_refuted.
Print Assumptions C24_xoshiro256_no_merge.
Print Assumptions C24_xoshiro512_no_merge.
Print Assumptions C24_xoroshiro128_no_merge.
Print Assumptions C24_xorshift1024_no_merge.
Print Assumptions C24_lxm_no_merge.
Print Assumptions C26_xoshiro256_never_zero.
Print Assumptions C26_xoshiro512_never_zero.
Print Assumptions C26_xoroshiro128_never_zero.
Print Assumptions C26_xorshift1024_never_zero.
Print Assumptions C26_lxm_never_zero.
Print Assumptions C26_lxm_seed_nonzero.
Print Assumptions C27_lxm_no_short_cycle.
Print Assumptions C27_lxm_new_odd.
Print Assumptions C27_lxm_setter_refuted.
Print Assumptions C49_murmur_hash3_injective.
