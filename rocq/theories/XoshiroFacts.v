(* Proofs about the classes Xoshiro256, Xoshiro512, Xoroshiro128 and LXM. *)
From Verif Require Import Word Buffer32 Gf2 Lcg Py Xoshiro XoshiroLin Order Primes Period PeriodXo Period512.
From Coq Require Import String ZifyBool ZifyNat ZifyN.
Open Scope N_scope.

(* ---- jump_inplace of any of these classes ---- *)
Section Jump.
  Context {A : Type} (next : A -> A * N) (Inv : A -> Prop) (jump : A -> A) (K : N).
  Hypothesis Hjump : forall a, Inv a -> jump a = N.iter K (cstep next) a.
  Hypothesis Hinv : forall a, Inv a -> Inv (cstep next a).
  Lemma iter_jump k a : Inv a -> N.iter k jump a = N.iter (k * K) (cstep next) a.
  Proof.
    intros Ha. induction k as [|k IH] using N.peano_ind; [reflexivity|].
    rewrite N.iter_succ, IH, Hjump by (apply Niter_inv; assumption).
    rewrite <- Niter_add. f_equal. lia.
  Qed.
  Lemma jump_buf_draws k b : Inv (core b) ->
    jump_buf jump (Z.of_N k) b = reset32 (N.iter (k * K) (draw next) b).
  Proof.
    intros Hb. unfold jump_buf. rewrite N2Z.id, iter_jump, draws_core by exact Hb. reflexivity.
  Qed.
  Lemma jump_buf_neg k b : (k <= 0)%Z -> jump_buf jump k b = reset32 b.
  Proof. intros Hk. unfold jump_buf. replace (Z.to_N k) with 0 by lia. reflexivity. Qed.
  Lemma jump_buf_add i j b : (0 <= i)%Z -> (0 <= j)%Z ->
    jump_buf jump j (jump_buf jump i b) = jump_buf jump (i + j) b.
  Proof.
    intros Hi Hj. unfold jump_buf. cbn [core]. rewrite <- Niter_add. f_equal. f_equal. lia.
  Qed.
  Lemma draws_inv n b : Inv (core b) -> Inv (core (N.iter n (draw next) b)).
  Proof. intros Hb. rewrite draws_core. cbn [core]. now apply Niter_inv. Qed.
End Jump.
(* K * i + n < period for all the streams considered: they never meet *)
Lemma stream_index_inj K M i j n m : n < K -> m < K -> i * K + K <= M -> j * K + K <= M ->
  (i * K + n) mod M = (j * K + m) mod M -> i = j /\ n = m.
Proof.
  intros Hn Hm Hi Hj E. rewrite !N.mod_small in E by lia.
  assert (i = j); [|subst; split; lia].
  destruct (N.lt_trichotomy i j) as [H|[H|H]]; [exfalso|exact H|exfalso]; nia.
Qed.
Lemma draws_inj {A} (next : A -> A * N) (Inv : A -> Prop) n b c :
  (forall a, Inv a -> Inv (cstep next a)) ->
  (forall x y, Inv x -> Inv y -> cstep next x = cstep next y -> x = y) ->
  Inv (core b) -> Inv (core c) ->
  N.iter n (draw next) b = N.iter n (draw next) c -> b = c.
Proof.
  intros Hi Hj. revert b c. induction n as [|n IH] using N.peano_ind; intros b c Hb Hc; [auto|].
  rewrite !N.iter_succ. intros E. apply IH; auto.
  apply (draw_inj next Inv) in E; auto; now apply (draws_inv next Inv).
Qed.

(* ---- Xoshiro256 ---- *)
Definition xoshiro256_draw : xoshiro256 -> xoshiro256 := draw xoshiro256_next.
Lemma xoshiro256_cstep : cstep xoshiro256_next = xoshiro256_step. Proof. reflexivity. Qed.
Lemma v4_of_words a : v4_of (v4_words a) = a. Proof. destruct a; reflexivity. Qed.
Lemma v8_of_words a : v8_of (v8_words a) = a. Proof. destruct a; reflexivity. Qed.
Lemma v2_of_words a : v2_of (v2_words a) = a. Proof. destruct a; reflexivity. Qed.
Lemma v4_words_wf a : v4_wf a -> Forall (wf 64) (v4_words a).
Proof. intros (?&?&?&?). repeat constructor; assumption. Qed.
Lemma v8_words_wf a : v8_wf a -> Forall (wf 64) (v8_words a).
Proof. intros (?&?&?&?&?&?&?&?). repeat constructor; assumption. Qed.
Lemma v2_words_wf a : v2_wf a -> Forall (wf 64) (v2_words a).
Proof. intros (?&?). repeat constructor; assumption. Qed.

Lemma xoshiro256_jump_draws k s : v4_wf (core s) ->
  xoshiro256_jump_inplace (Z.of_N k) s = reset32 (N.iter (k * 2 ^ 128) xoshiro256_draw s).
Proof.
  exact (jump_buf_draws xoshiro256_next v4_wf xoshiro256_jump (2 ^ 128) xoshiro256_jump_steps xoshiro256_step_wf k s).
Qed.
Lemma xoshiro256_restores : restores xoshiro256_wf xoshiro256_get xoshiro256_set.
Proof.
  intros [c h u] t [Hc Hu] _. cbn [core u32] in *. unfold xoshiro256_set, xoshiro256_get. cbn [core has32 u32].
  rewrite bind_lift. cbn [preamble get_default assoc String.eqb Ascii.eqb Bool.eqb orb].
  rewrite bind_lift. cbn [getitem assoc String.eqb Ascii.eqb Bool.eqb obind].
  rewrite check_arr_ok by (try reflexivity; now apply v4_words_wf).
  rewrite bind_modify. rewrite (set_half_run _ h u) by (try reflexivity; assumption).
  cbn [set_core core]. now rewrite v4_of_words.
Qed.
Lemma xoshiro256_jumped_spec iter t s : xoshiro256_wf s -> xoshiro256_wf t ->
  xoshiro256_jumped iter t s = (xoshiro256_jump_inplace iter s, Ok tt).
Proof. intros Hs Ht. unfold xoshiro256_jumped, bind. rewrite (xoshiro256_restores s t Hs Ht). reflexivity. Qed.
Lemma xoshiro256_step_inj a b : v4_wf a -> v4_wf b -> xoshiro256_step a = xoshiro256_step b -> a = b.
Proof. exact (l_T_inj _ _ _ _ xoshiro256_step_linear phi256 phi256_annihilates xo256_odd a b). Qed.
Lemma xoshiro256_draws_inj n b c : v4_wf (core b) -> v4_wf (core c) ->
  N.iter n xoshiro256_draw b = N.iter n xoshiro256_draw c -> b = c.
Proof. exact (draws_inj xoshiro256_next v4_wf n b c xoshiro256_step_wf xoshiro256_step_inj). Qed.
Lemma xoshiro256_draws n s : N.iter n xoshiro256_draw s =
  Buf (N.iter n xoshiro256_step (core s)) (has32 s) (u32 s).
Proof. apply draws_core. Qed.
Lemma v4_nz a : v4_words a <> [0;0;0;0] -> a <> v4_zero.
Proof. intros H ->. now apply H. Qed.
Lemma buf_iter_eq {A} (f : A -> A) i j (s : buffered A) :
  Buf (N.iter i f (core s)) (has32 s) (u32 s) = Buf (N.iter j f (core s)) (has32 s) (u32 s) <->
  N.iter i f (core s) = N.iter j f (core s).
Proof. split; [now intros [= ->]|now intros ->]. Qed.
Lemma xoshiro256_distinct s i j : v4_wf (core s) -> v4_words (core s) <> [0;0;0;0] ->
  (N.iter i xoshiro256_draw s = N.iter j xoshiro256_draw s <-> i mod (2 ^ 256 - 1) = j mod (2 ^ 256 - 1)).
Proof.
  intros Hs Hz. rewrite !xoshiro256_draws. etransitivity; [apply buf_iter_eq|]. exact (xo256_distinct (core s) i j Hs (v4_nz _ Hz)).
Qed.
Lemma xoshiro256_nonzero n s : v4_wf (core s) -> v4_words (core s) <> [0;0;0;0] ->
  v4_words (core (N.iter n xoshiro256_draw s)) <> [0;0;0;0].
Proof.
  intros Hs Hz E. rewrite xoshiro256_draws in E. cbn [core] in E.
  apply (l_nonzero _ _ _ _ xoshiro256_step_linear phi256 phi256_annihilates xo256_odd n (core s) Hs (v4_nz _ Hz)).
  rewrite <- (v4_of_words (N.iter n xoshiro256_step (core s))), E. reflexivity.
Qed.

(* ---- Xoshiro512 ---- *)
Definition xoshiro512_draw : xoshiro512 -> xoshiro512 := draw xoshiro512_next.
Lemma xoshiro512_jump_draws k s : v8_wf (core s) ->
  xoshiro512_jump_inplace (Z.of_N k) s = reset32 (N.iter (k * 2 ^ 256) xoshiro512_draw s).
Proof.
  exact (jump_buf_draws xoshiro512_next v8_wf xoshiro512_jump (2 ^ 256) xoshiro512_jump_steps xoshiro512_step_wf k s).
Qed.
Lemma xoshiro512_restores : restores xoshiro512_wf xoshiro512_get xoshiro512_set.
Proof.
  intros [c h u] t [Hc Hu] _. cbn [core u32] in *. unfold xoshiro512_set, xoshiro512_get. cbn [core has32 u32].
  rewrite bind_lift. cbn [preamble get_default assoc String.eqb Ascii.eqb Bool.eqb orb].
  rewrite bind_lift. cbn [getitem assoc String.eqb Ascii.eqb Bool.eqb obind].
  rewrite check_arr_ok by (try reflexivity; now apply v8_words_wf).
  rewrite bind_modify. rewrite (set_half_run _ h u) by (try reflexivity; assumption).
  cbn [set_core core]. now rewrite v8_of_words.
Qed.
Lemma xoshiro512_jumped_spec iter t s : xoshiro512_wf s -> xoshiro512_wf t ->
  xoshiro512_jumped iter t s = (xoshiro512_jump_inplace iter s, Ok tt).
Proof. intros Hs Ht. unfold xoshiro512_jumped, bind. rewrite (xoshiro512_restores s t Hs Ht). reflexivity. Qed.
Lemma xoshiro512_step_inj a b : v8_wf a -> v8_wf b -> xoshiro512_step a = xoshiro512_step b -> a = b.
Proof. exact (l_T_inj _ _ _ _ xoshiro512_step_linear phi512 phi512_annihilates xo512_odd a b). Qed.
Lemma xoshiro512_draws_inj n b c : v8_wf (core b) -> v8_wf (core c) ->
  N.iter n xoshiro512_draw b = N.iter n xoshiro512_draw c -> b = c.
Proof. exact (draws_inj xoshiro512_next v8_wf n b c xoshiro512_step_wf xoshiro512_step_inj). Qed.
Lemma xoshiro512_draws n s : N.iter n xoshiro512_draw s =
  Buf (N.iter n xoshiro512_step (core s)) (has32 s) (u32 s).
Proof. apply draws_core. Qed.
Lemma v8_nz a : v8_words a <> [0;0;0;0;0;0;0;0] -> a <> v8_zero.
Proof. intros H ->. now apply H. Qed.
Lemma xoshiro512_distinct s i j : v8_wf (core s) -> v8_words (core s) <> [0;0;0;0;0;0;0;0] ->
  (N.iter i xoshiro512_draw s = N.iter j xoshiro512_draw s <-> i mod (2 ^ 512 - 1) = j mod (2 ^ 512 - 1)).
Proof.
  intros Hs Hz. rewrite !xoshiro512_draws. etransitivity; [apply buf_iter_eq|]. exact (xo512_distinct (core s) i j Hs (v8_nz _ Hz)).
Qed.
Lemma xoshiro512_nonzero n s : v8_wf (core s) -> v8_words (core s) <> [0;0;0;0;0;0;0;0] ->
  v8_words (core (N.iter n xoshiro512_draw s)) <> [0;0;0;0;0;0;0;0].
Proof.
  intros Hs Hz E. rewrite xoshiro512_draws in E. cbn [core] in E.
  apply (l_nonzero _ _ _ _ xoshiro512_step_linear phi512 phi512_annihilates xo512_odd n (core s) Hs (v8_nz _ Hz)).
  rewrite <- (v8_of_words (N.iter n xoshiro512_step (core s))), E. reflexivity.
Qed.

(* ---- Xoroshiro128, both variants ---- *)
Definition xoroshiro128_draw : xoroshiro128 -> xoroshiro128 := draw xoroc_next.
Definition xoroc_wf (c : xoroc) : Prop := v2_wf (xo_s c).
Lemma xoroc_step_wf c : xoroc_wf c -> xoroc_wf (cstep xoroc_next c).
Proof. exact (xoroshiro_step_wf (xo_pp c) (xo_s c)). Qed.
Lemma xoroc_iter n c : N.iter n (cstep xoroc_next) c = XC (N.iter n (xoroshiro_step (xo_pp c)) (xo_s c)) (xo_pp c).
Proof.
  induction n as [|n IH] using N.peano_ind; [destruct c; reflexivity|].
  rewrite !N.iter_succ, IH. reflexivity.
Qed.
Lemma xoroshiro128_draws n s : N.iter n xoroshiro128_draw s =
  Buf (XC (N.iter n (xoroshiro_step (xo_pp (core s))) (xo_s (core s))) (xo_pp (core s))) (has32 s) (u32 s).
Proof. etransitivity; [apply draws_core|]. now rewrite xoroc_iter. Qed.
Lemma xoroshiro_jump_steps pp s : v2_wf s -> xoroshiro_jump pp s = N.iter (2 ^ 64) (xoroshiro_step pp) s.
Proof. destruct pp; [exact (xoroshiro_jump_true_steps s)|exact (xoroshiro_jump_false_steps s)]. Qed.
Lemma xoroc_jump_steps_gen K :
  (forall pp s, v2_wf s -> xoroshiro_jump pp s = N.iter K (xoroshiro_step pp) s) ->
  forall c, xoroc_wf c ->
  XC (xoroshiro_jump (xo_pp c) (xo_s c)) (xo_pp c) = N.iter K (cstep xoroc_next) c.
Proof. intros H c Hc. rewrite xoroc_iter. f_equal. now apply H. Qed.
Lemma xoroshiro128_jump_draws k s : v2_wf (xo_s (core s)) ->
  xoroshiro128_jump_inplace (Z.of_N k) s = reset32 (N.iter (k * 2 ^ 64) xoroshiro128_draw s).
Proof.
  exact (jump_buf_draws xoroc_next xoroc_wf _ (2 ^ 64) (xoroc_jump_steps_gen (2 ^ 64) xoroshiro_jump_steps) xoroc_step_wf k s).
Qed.
Lemma xoroshiro128_restores : restores xoroshiro128_wf xoroshiro128_get xoroshiro128_set.
Proof.
  intros [[c pp] h u] [[c' pp'] h' u'] [Hc Hu] _. cbn [core u32 xo_s] in *.
  unfold xoroshiro128_set, xoroshiro128_get. cbn [core has32 u32 xo_s xo_pp].
  rewrite bind_lift. cbn [preamble get_default assoc String.eqb Ascii.eqb Bool.eqb orb].
  rewrite bind_lift. cbn [getitem assoc String.eqb Ascii.eqb Bool.eqb obind].
  rewrite check_arr_ok by (try reflexivity; now apply v2_words_wf).
  rewrite bind_modify. unfold bind at 1. rewrite (set_half_run _ h u) by (try reflexivity; assumption).
  rewrite bind_lift. cbn [assoc String.eqb Ascii.eqb Bool.eqb]. rewrite to_bint_bool.
  unfold modify. cbn [set_core core has32 u32 xo_s xo_pp]. now rewrite v2_of_words.
Qed.
Lemma xoroshiro128_jumped_spec iter t s : xoroshiro128_wf s -> xoroshiro128_wf t ->
  xoroshiro128_jumped iter t s = (xoroshiro128_jump_inplace iter s, Ok tt).
Proof. intros Hs Ht. unfold xoroshiro128_jumped, bind. rewrite (xoroshiro128_restores s t Hs Ht). reflexivity. Qed.
Lemma xoroshiro_step_inj pp a b : v2_wf a -> v2_wf b -> xoroshiro_step pp a = xoroshiro_step pp b -> a = b.
Proof.
  destruct pp.
  - exact (l_T_inj _ _ _ _ xoroshiro_step_true_linear phi128pp phi128pp_annihilates xo128pp_odd a b).
  - exact (l_T_inj _ _ _ _ xoroshiro_step_false_linear phi128 phi128_annihilates xo128_odd a b).
Qed.
Lemma xoroc_step_inj c d : xoroc_wf c -> xoroc_wf d -> cstep xoroc_next c = cstep xoroc_next d -> c = d.
Proof.
  destruct c as [s pp], d as [t qq]. unfold xoroc_wf, cstep, xoroc_next. cbn [xo_s xo_pp fst].
  intros Hs Ht E. injection E. intros -> E1. f_equal. now apply (xoroshiro_step_inj qq).
Qed.
Lemma xoroshiro128_draws_inj n b c : v2_wf (xo_s (core b)) -> v2_wf (xo_s (core c)) ->
  N.iter n xoroshiro128_draw b = N.iter n xoroshiro128_draw c -> b = c.
Proof. exact (draws_inj xoroc_next xoroc_wf n b c xoroc_step_wf xoroc_step_inj). Qed.
Lemma v2_nz a : v2_words a <> [0;0] -> a <> v2_zero.
Proof. intros H ->. now apply H. Qed.
Lemma xoroshiro128_distinct s i j : v2_wf (xo_s (core s)) -> v2_words (xo_s (core s)) <> [0;0] ->
  (N.iter i xoroshiro128_draw s = N.iter j xoroshiro128_draw s <-> i mod (2 ^ 128 - 1) = j mod (2 ^ 128 - 1)).
Proof.
  intros Hs Hz. rewrite !xoroshiro128_draws.
  destruct s as [[c pp] h u]. cbn [core xo_s xo_pp has32 u32] in *.
  assert (E : forall M, (forall v, v2_wf v -> v <> v2_zero ->
    (N.iter i (xoroshiro_step pp) v = N.iter j (xoroshiro_step pp) v <-> i mod M = j mod M)) ->
    Buf (XC (N.iter i (xoroshiro_step pp) c) pp) h u = Buf (XC (N.iter j (xoroshiro_step pp) c) pp) h u <-> i mod M = j mod M).
  { intros M H. rewrite <- (H c Hs (v2_nz _ Hz)). split; [now intros [= ->]|now intros ->]. }
  destruct pp.
  - exact (E (2 ^ 128 - 1) (fun v => xo128pp_distinct v i j)).
  - exact (E (2 ^ 128 - 1) (fun v => xo128_distinct v i j)).
Qed.
Lemma xoroshiro128_nonzero n s : v2_wf (xo_s (core s)) -> v2_words (xo_s (core s)) <> [0;0] ->
  v2_words (xo_s (core (N.iter n xoroshiro128_draw s))) <> [0;0].
Proof.
  intros Hs Hz E. rewrite xoroshiro128_draws in E. cbn [core xo_s] in E.
  assert (Z : N.iter n (xoroshiro_step (xo_pp (core s))) (xo_s (core s)) = v2_zero).
  { rewrite <- (v2_of_words (N.iter n _ _)), E. reflexivity. }
  revert Z. destruct (xo_pp (core s)).
  - exact (l_nonzero _ _ _ _ xoroshiro_step_true_linear phi128pp phi128pp_annihilates xo128pp_odd n _ Hs (v2_nz _ Hz)).
  - exact (l_nonzero _ _ _ _ xoroshiro_step_false_linear phi128 phi128_annihilates xo128_odd n _ Hs (v2_nz _ Hz)).
Qed.

(* ---- LXM ---- *)
Definition lxm_draw : lxm -> lxm := draw lxm_next.
Lemma lxm_step_wf c : lxmc_wf c -> lxmc_wf (cstep lxm_next c).
Proof.
  intros (Hx & Hl & Hb). split; [exact (xoshiro256_step_wf _ Hx)|]. split; [apply wf_lcg_step|exact Hb].
Qed.
Lemma lxm_iter n c : N.iter n (cstep lxm_next) c =
  LX (N.iter n xoshiro256_step (lx_x c)) (N.iter n (lcg_step 64 LXM_MULT (lx_b c)) (lx_lcg c)) (lx_b c).
Proof.
  induction n as [|n IH] using N.peano_ind; [destruct c; reflexivity|].
  rewrite !N.iter_succ, IH. reflexivity.
Qed.
Lemma lxm_draws n s : N.iter n lxm_draw s =
  Buf (LX (N.iter n xoshiro256_step (lx_x (core s))) (N.iter n (lcg_step 64 LXM_MULT (lx_b (core s))) (lx_lcg (core s)))
          (lx_b (core s))) (has32 s) (u32 s).
Proof. etransitivity; [apply draws_core|]. now rewrite lxm_iter. Qed.
Lemma lxm_jump_gen K : K mod 2 ^ 64 = 0 ->
  (forall s, v4_wf s -> xoshiro256_jump s = N.iter K xoshiro256_step s) ->
  forall c, lxmc_wf c -> lxm_jump c = N.iter K (cstep lxm_next) c.
Proof.
  intros HK HJ c (Hx & Hl & Hb). rewrite lxm_iter. unfold lxm_jump. f_equal.
  - change lxm_xorshift with xoshiro256_step. change LXM_JUMP with XOSHIRO256_JUMP.
    rewrite <- HJ by exact Hx. unfold xoshiro256_jump. reflexivity.
  - rewrite lcg_iter_mod by (try reflexivity; exact Hl). now rewrite HK.
Qed.
Lemma lxm_K : 2 ^ 128 mod 2 ^ 64 = 0. Proof. reflexivity. Qed.
Lemma lxm_jump_draws k s : lxmc_wf (core s) ->
  lxm_jump_inplace (Z.of_N k) s = reset32 (N.iter (k * 2 ^ 128) lxm_draw s).
Proof.
  exact (jump_buf_draws lxm_next lxmc_wf lxm_jump (2 ^ 128) (lxm_jump_gen (2 ^ 128) lxm_K xoshiro256_jump_steps) lxm_step_wf k s).
Qed.
Lemma lxm_restores : restores lxm_wf lxm_get lxm_set.
Proof.
  intros [[x g b] h u] [[x' g' b'] h' u'] [(Hx & Hg & Hb) Hu] _. cbn [core u32 lx_x lx_lcg lx_b] in *.
  unfold lxm_set, lxm_get. cbn [core has32 u32 lx_x lx_lcg lx_b].
  rewrite bind_lift. cbn [preamble get_default assoc String.eqb Ascii.eqb Bool.eqb orb].
  rewrite bind_lift. cbn [getitem assoc String.eqb Ascii.eqb Bool.eqb obind].
  rewrite check_arr_ok by (try reflexivity; now apply v4_words_wf).
  rewrite bind_modify, bind_lift. cbn [getitem assoc String.eqb Ascii.eqb Bool.eqb obind].
  rewrite to_uint_ok by exact Hg. rewrite bind_modify, bind_lift.
  rewrite to_uint_ok by exact Hb. rewrite bind_modify.
  rewrite (set_half_run _ h u) by (try reflexivity; assumption).
  cbn [set_core core has32 u32 lx_x lx_lcg lx_b]. now rewrite v4_of_words.
Qed.
Lemma lxm_jumped_spec iter t s : lxm_wf s -> lxm_wf t ->
  lxm_jumped iter t s = (lxm_jump_inplace iter s, Ok tt).
Proof. intros Hs Ht. unfold lxm_jumped, bind. rewrite (lxm_restores s t Hs Ht). reflexivity. Qed.
Lemma lxm_step_inj c d : lxmc_wf c -> lxmc_wf d -> cstep lxm_next c = cstep lxm_next d -> c = d.
Proof.
  destruct c as [x g b], d as [y g' b']. intros (Hx & Hg & Hb) (Hy & Hg' & Hb'). cbn [lx_x lx_lcg lx_b] in *.
  unfold cstep, lxm_next, lxm_step. cbn [lx_x lx_lcg lx_b fst]. intros E.
  assert (E3 := f_equal lx_b E). assert (E1 := f_equal lx_lcg E). assert (E2 := f_equal lx_x E). clear E.
  cbn [lx_x lx_lcg lx_b] in E1, E2, E3. subst b'.
  f_equal.
  - exact (xoshiro256_step_inj x y Hx Hy E2).
  - revert E1. now apply lcg_step_inj.
Qed.
Lemma lxm_draws_inj n b c : lxmc_wf (core b) -> lxmc_wf (core c) ->
  N.iter n lxm_draw b = N.iter n lxm_draw c -> b = c.
Proof. exact (draws_inj lxm_next lxmc_wf n b c lxm_step_wf lxm_step_inj). Qed.
Lemma lxm_nonzero n s : lxmc_wf (core s) -> v4_words (lx_x (core s)) <> [0;0;0;0] ->
  v4_words (lx_x (core (N.iter n lxm_draw s))) <> [0;0;0;0].
Proof.
  intros (Hx & _) Hz E. rewrite lxm_draws in E. cbn [core lx_x] in E.
  apply (l_nonzero _ _ _ _ xoshiro256_step_linear phi256 phi256_annihilates xo256_odd n (lx_x (core s)) Hx (v4_nz _ Hz)).
  rewrite <- (v4_of_words (N.iter n xoshiro256_step _)), E. reflexivity.
Qed.
(* both components must return: the period is the product *)
Lemma crt_mod n a b : a <> 0 -> b <> 0 -> N.gcd a b = 1 ->
  (n mod a = 0 /\ n mod b = 0 <-> n mod (a * b) = 0).
Proof.
  intros Ha Hb Hg. rewrite !N.mod_divide by (try assumption; nia). split.
  - intros [[q ->] H]. rewrite N.mul_comm in H. apply N.gauss in H; [|now rewrite N.gcd_comm].
    destruct H as [r ->]. exists r. ring.
  - intros [q ->]. split; [exists (q * b)|exists (q * a)]; ring.
Qed.
Lemma lxm_period_gen M : M <> 0 -> N.gcd M (2 ^ 64) = 1 ->
  (forall v k, v4_wf v -> v <> v4_zero -> (N.iter k xoshiro256_step v = v <-> k mod M = 0)) ->
  forall s k, lxmc_wf (core s) -> v4_words (lx_x (core s)) <> [0;0;0;0] -> N.odd (lx_b (core s)) = true ->
  (N.iter k lxm_draw s = s <-> k mod (M * 2 ^ 64) = 0).
Proof.
  intros HM Hg HP s k (Hx & Hl & Hb) Hz Ho. rewrite lxm_draws.
  rewrite <- crt_mod by (try assumption; apply pow2_nz).
  rewrite <- (HP (lx_x (core s)) k Hx (v4_nz _ Hz)).
  rewrite <- (lcg_period 64 LXM_MULT (lx_b (core s)) (lx_lcg (core s)) k) by (try reflexivity; assumption).
  destruct s as [[x g b] h u]. cbn [core lx_x lx_lcg lx_b has32 u32]. split.
  - intros E. injection E. intros E1 E2. now split.
  - intros [-> ->]. reflexivity.
Qed.
Lemma lxm_M1 : 2 ^ 256 - 1 <> 0. Proof. discriminate. Qed.
Lemma lxm_M2 : N.gcd (2 ^ 256 - 1) (2 ^ 64) = 1. Proof. reflexivity. Qed.
Lemma lxm_period s k : lxmc_wf (core s) -> v4_words (lx_x (core s)) <> [0;0;0;0] -> N.odd (lx_b (core s)) = true ->
  (N.iter k lxm_draw s = s <-> k mod ((2 ^ 256 - 1) * 2 ^ 64) = 0).
Proof. exact (lxm_period_gen (2 ^ 256 - 1) lxm_M1 lxm_M2 xo256_period s k). Qed.
(* without any condition on the xorshift part: cycles are multiples of 2^64 *)
Lemma lxm_no_short_cycle s k : lxmc_wf (core s) -> N.odd (lx_b (core s)) = true ->
  N.iter k lxm_draw s = s -> k mod 2 ^ 64 = 0.
Proof.
  intros (Hx & Hl & Hb) Ho. rewrite lxm_draws.
  rewrite <- (lcg_period 64 LXM_MULT (lx_b (core s)) (lx_lcg (core s)) k) by (try reflexivity; assumption).
  destruct s as [[x g b] h u]. cbn [core lx_x lx_lcg lx_b has32 u32].
  intros E. injection E. now intros E1 E2.
Qed.
(* murmur_hash3 is a permutation of the 64-bit words *)
Lemma murmur_hash3_inj a b : wf 64 a -> wf 64 b -> murmur_hash3 a = murmur_hash3 b -> a = b.
Proof.
  assert (S : forall k, wf 64 k -> forall x, wf 64 (N.lxor k (N.shiftr k x))).
  { intros k Hk x. apply wf_lxor; [exact Hk|now apply wf_shr]. }
  assert (W : forall x y, wf 64 (wmul 64 x y)) by (intros; apply wf_trunc).
  intros Ha Hb. unfold murmur_hash3. intros E.
  apply (lxor_shr_inj 64) in E; [|reflexivity|apply W..].
  rewrite !(wmul_comm 64 _ 0x94d049bb133111eb) in E. apply odd_mul_inj in E; [|reflexivity|apply S, W..].
  apply (lxor_shr_inj 64) in E; [|reflexivity|apply W..].
  rewrite !(wmul_comm 64 _ 0xbf58476d1ce4e5b9) in E. apply odd_mul_inj in E; [|reflexivity|apply S; assumption..].
  apply (lxor_shr_inj 64) in E; [exact E|reflexivity|assumption..].
Qed.

(* ---- any sequence of draws and jumps ---- *)
Inductive op := Draw | Jump (iter : Z).
Definition do_op {A} (next : A -> A * N) (jump : A -> A) (s : buffered A) (o : op) : buffered A :=
  match o with Draw => draw next s | Jump i => jump_buf jump i s end.
Lemma ops_draws {A} (next : A -> A * N) (Inv : A -> Prop) jump K :
  (forall a, Inv a -> jump a = N.iter K (cstep next) a) ->
  (forall a, Inv a -> Inv (cstep next a)) ->
  forall l s, Inv (core s) -> exists n, core (fold_left (do_op next jump) l s) = N.iter n (cstep next) (core s).
Proof.
  intros HJ HI. induction l as [|o l IH]; intros s Hs; [now exists 0|]. cbn [fold_left].
  assert (E : exists m, core (do_op next jump s o) = N.iter m (cstep next) (core s)).
  { destruct o; cbn [do_op].
    - exists 1. now rewrite draw_eq.
    - unfold jump_buf. cbn [core]. eexists. apply (iter_jump next Inv jump K HJ HI). exact Hs. }
  destruct E as [m Em]. destruct (IH (do_op next jump s o)) as [n En].
  - rewrite Em. now apply Niter_inv.
  - exists (m + n). now rewrite En, Em, Niter_add.
Qed.
Lemma xoshiro256_ops_nonzero l s : v4_wf (core s) -> v4_words (core s) <> [0;0;0;0] ->
  v4_words (core (fold_left (do_op xoshiro256_next xoshiro256_jump) l s)) <> [0;0;0;0].
Proof.
  intros Hs Hz. destruct (ops_draws xoshiro256_next v4_wf xoshiro256_jump (2 ^ 128) xoshiro256_jump_steps xoshiro256_step_wf l s Hs) as [n ->].
  pose proof (xoshiro256_nonzero n s Hs Hz) as H. now rewrite xoshiro256_draws in H.
Qed.
Lemma xoshiro512_ops_nonzero l s : v8_wf (core s) -> v8_words (core s) <> [0;0;0;0;0;0;0;0] ->
  v8_words (core (fold_left (do_op xoshiro512_next xoshiro512_jump) l s)) <> [0;0;0;0;0;0;0;0].
Proof.
  intros Hs Hz. destruct (ops_draws xoshiro512_next v8_wf xoshiro512_jump (2 ^ 256) xoshiro512_jump_steps xoshiro512_step_wf l s Hs) as [n ->].
  pose proof (xoshiro512_nonzero n s Hs Hz) as H. now rewrite xoshiro512_draws in H.
Qed.
Definition xoroc_jump (c : xoroc) : xoroc := XC (xoroshiro_jump (xo_pp c) (xo_s c)) (xo_pp c).
Lemma xoroshiro128_ops_nonzero l s : v2_wf (xo_s (core s)) -> v2_words (xo_s (core s)) <> [0;0] ->
  v2_words (xo_s (core (fold_left (do_op xoroc_next xoroc_jump) l s))) <> [0;0].
Proof.
  intros Hs Hz. destruct (ops_draws xoroc_next xoroc_wf xoroc_jump (2 ^ 64) (xoroc_jump_steps_gen (2 ^ 64) xoroshiro_jump_steps) xoroc_step_wf l s Hs) as [n ->].
  pose proof (xoroshiro128_nonzero n s Hs Hz) as H. rewrite xoroshiro128_draws in H. rewrite xoroc_iter. exact H.
Qed.
Lemma lxm_ops_nonzero l s : lxmc_wf (core s) -> v4_words (lx_x (core s)) <> [0;0;0;0] ->
  v4_words (lx_x (core (fold_left (do_op lxm_next lxm_jump) l s))) <> [0;0;0;0].
Proof.
  intros Hs Hz. destruct (ops_draws lxm_next lxmc_wf lxm_jump (2 ^ 128) (lxm_jump_gen (2 ^ 128) lxm_K xoshiro256_jump_steps) lxm_step_wf l s Hs) as [n ->].
  pose proof (lxm_nonzero n s Hs Hz) as H. rewrite lxm_draws in H. rewrite lxm_iter. exact H.
Qed.

(* ---- streams started from different jumps ---- *)
Lemma core_reset {A} (a b : buffered A) : reset32 a = reset32 b -> core a = core b.
Proof. now intros [= ->]. Qed.
Section Streams.
  Context {A : Type} (next : A -> A * N) (Inv : A -> Prop) (jump : A -> A) (K M : N) (s : buffered A).
  Hypothesis Hjump : forall a, Inv a -> jump a = N.iter K (cstep next) a.
  Hypothesis Hinv : forall a, Inv a -> Inv (cstep next a).
  Hypothesis Hs : Inv (core s).
  Hypothesis Hdist : forall i j, N.iter i (draw next) s = N.iter j (draw next) s <-> i mod M = j mod M.
  Lemma draws_core_eq i j : core (N.iter i (draw next) s) = core (N.iter j (draw next) s) -> i mod M = j mod M.
  Proof. rewrite <- Hdist, !draws_core. cbn [core]. now intros ->. Qed.
  Lemma core_draws_reset n (b : buffered A) : core (N.iter n (draw next) (reset32 b)) = core (N.iter n (draw next) b).
  Proof. now rewrite !draws_core. Qed.
  Lemma streams_disjoint i j n m : i * K + K <= M -> j * K + K <= M -> n < K -> m < K ->
    core (N.iter n (draw next) (jump_buf jump (Z.of_N i) s)) = core (N.iter m (draw next) (jump_buf jump (Z.of_N j) s)) ->
    i = j /\ n = m.
  Proof.
    intros Hi Hj Hn Hm. rewrite !(jump_buf_draws next Inv jump K) by assumption.
    rewrite !core_draws_reset, <- !Niter_add. intros E. apply draws_core_eq in E.
    now apply (stream_index_inj K M).
  Qed.
  Lemma jump_not k e : (k * K) mod M <> e mod M ->
    jump_buf jump (Z.of_N k) s <> reset32 (N.iter e (draw next) s).
  Proof.
    intros H E. rewrite (jump_buf_draws next Inv jump K) in E by assumption.
    apply core_reset, draws_core_eq in E. contradiction.
  Qed.
End Streams.
Lemma streams_side i K M : 0 < K -> M = K * K - 1 -> i < K - 1 -> i * K + K <= M.
Proof. intros HK -> Hi. nia. Qed.
