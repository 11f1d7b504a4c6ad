(* C78 for the linear generators: over the full period 2^k - 1 every word occurs
   equally often, except that the state of zeros, which never comes up, is missing
   once. count: Count.v. *)
From Verif Require Import Word Finite Count Buffer32 Gf2 Lcg Py Xoshiro XoshiroFacts Xorshift1024Lin Xorshift1024Facts XorshiftFacts XoshiroLin PeriodXo Period512 Period1024 PropOut PropEqui.
From Coq Require Import String ZifyBool ZifyNat ZifyN.
Open Scope N_scope.
Notation length := Datatypes.length.
Ltac Zify.zify_post_hook ::= idtac.

(* the states of one period, numbered by enc, are all numbers but 0 *)
Lemma period_count {A} (D : A -> Prop) (T : A -> A) (enc : A -> N) (zero s : A) M C P :
  C = N.succ M -> (forall a, D a -> D (T a)) -> D s -> D zero -> enc zero = 0 -> (forall a, D a -> enc a < C) ->
  (forall a b, D a -> D b -> enc a = enc b -> a = b) -> (forall i, N.iter i T s <> zero) ->
  (forall i j, N.iter i T s = N.iter j T s <-> i mod M = j mod M) ->
  count (fun i => P (enc (N.iter i T s))) M + (if P 0 then 1 else 0) = count P C.
Proof.
  intros -> HT Hs Hz Ez Hb Hi Hnz Hd. assert (Ds : forall i, D (N.iter i T s)) by (intros i; now apply iter_wf).
  apply (count_missing (fun i => enc (N.iter i T s)) P M 0).
  - lia.
  - intros i _. split; [now apply Hb|]. intros E. apply (Hnz i), Hi; [apply Ds|exact Hz|now rewrite E].
  - intros i j I J E. apply Hi in E; [|apply Ds..]. apply Hd in E. now rewrite !N.mod_small in E by assumption.
Qed.
Lemma count_plus_ext P Q n a b : (forall i, P i = Q i) -> a = b -> count P n + a = count Q n + b.
Proof. intros H ->. now rewrite (count_ext P Q n). Qed.
Definition starstar (x : N) : N := wmul 64 (rotl 64 (wmul 64 x 5) 7) 9.
Lemma starstar_wf x : starstar x < 2 ^ 64. Proof. apply wf_wmul. Qed.
Lemma starstar_inj x y : x < 2 ^ 64 -> y < 2 ^ 64 -> starstar x = starstar y -> x = y.
Proof.
  intros Hx Hy E. destruct (C49_starstar_bijective (starstar x) (starstar_wf x)) as (z & _ & _ & U).
  rewrite (U x Hx eq_refl), (U y Hy (eq_sym E)). reflexivity.
Qed.
Lemma digit_lt x y A : x < 2 ^ 64 -> y < A -> x + 2 ^ 64 * y < A * 2 ^ 64.
Proof. intros Hx Hy. apply N.lt_le_trans with (2 ^ 64 * (y + 1)); [lia|]. rewrite (N.mul_comm A). apply N.mul_le_mono_l. lia. Qed.
Lemma digit_inj x y x' y' : x < 2 ^ 64 -> x' < 2 ^ 64 -> x + 2 ^ 64 * y = x' + 2 ^ 64 * y' -> x = x' /\ y = y'.
Proof. intros. lia. Qed.
Lemma digit_low x y : x < 2 ^ 64 -> (x + 2 ^ 64 * y) mod 2 ^ 64 = x.
Proof. intros H. rewrite N.mul_comm, N.mod_add by discriminate. now apply N.mod_small. Qed.
Lemma digit_high x y : x < 2 ^ 64 -> (x + 2 ^ 64 * y) / 2 ^ 64 = y.
Proof. intros H. rewrite N.mul_comm, N.div_add by discriminate. now rewrite N.div_small. Qed.

(* ------------------------------------------------------------- Xoshiro256 *)
Definition enc4 (s : v4) : N := v4_1 s + 2 ^ 64 * (v4_0 s + 2 ^ 64 * (v4_2 s + 2 ^ 64 * v4_3 s)).
Lemma enc4_lt s : v4_wf s -> enc4 s < 2 ^ 256.
Proof. intros (H0 & H1 & H2 & H3). apply (digit_lt _ _ (2 ^ 128 * 2 ^ 64)); [exact H1|]. apply digit_lt; [exact H0|]. now apply (digit_lt _ _ (2 ^ 64)). Qed.
Lemma enc4_inj a b : v4_wf a -> v4_wf b -> enc4 a = enc4 b -> a = b.
Proof.
  destruct a as [a0 a1 a2 a3], b as [b0 b1 b2 b3]. intros (H0 & H1 & H2 & H3) (G0 & G1 & G2 & G3). unfold enc4. cbn [v4_0 v4_1 v4_2 v4_3] in *. intros E.
  apply digit_inj in E as [-> E]; [|assumption..]. apply digit_inj in E as [-> E]; [|assumption..]. apply digit_inj in E as [-> ->]; [|assumption..]. reflexivity.
Qed.
Lemma v4_zero_wf : v4_wf v4_zero. Proof. repeat split. Qed.
Definition xoshiro256_value (s : xoshiro256) (i : N) : N := snd (xoshiro256_next64 (N.iter i xoshiro256_draw s)).
Lemma xoshiro256_value_eq s i : xoshiro256_value s i = starstar (v4_1 (N.iter i xoshiro256_step (core s))).
Proof. unfold xoshiro256_value. rewrite xoshiro256_draws. reflexivity. Qed.
Lemma iter_nonzero {A} (T : A -> A) (zero s : A) : (forall a, T a = zero -> a = zero) -> s <> zero -> forall i, N.iter i T s <> zero.
Proof. intros H Hs i. induction i as [|i IH] using N.peano_ind; [exact Hs|]. rewrite N.iter_succ. intros E. now apply IH, H. Qed.
Lemma xo256_nz s i : v4_wf s -> v4_words s <> [0;0;0;0] -> N.iter i xoshiro256_step s <> v4_zero.
Proof. intros Hs Hz E. apply (xoshiro256_nonzero i (Buf s false 0) Hs Hz). rewrite xoshiro256_draws. cbn [core]. now rewrite E. Qed.
Lemma low_count f Q A : (forall x, x < 2 ^ 64 -> f x < 2 ^ 64) -> (forall x y, x < 2 ^ 64 -> y < 2 ^ 64 -> f x = f y -> x = y) ->
  count (fun x => Q (f (x mod 2 ^ 64))) (A * 2 ^ 64) = A * count Q (2 ^ 64).
Proof. intros Hb Hi. apply (count_low (fun _ l => f l) Q A (2 ^ 64)); intros; [now apply Hb|now apply Hi]. Qed.
Theorem C78_xoshiro256_equidistributed :
  forall s Q, v4_wf (core s) -> v4_words (core s) <> [0;0;0;0] ->
  count (fun i => Q (xoshiro256_value s i)) (2 ^ 256 - 1) + (if Q 0 then 1 else 0) = 2 ^ 192 * count Q (2 ^ 64).
Proof.
  intros s Q Hs Hz.
  pose proof (period_count v4_wf xoshiro256_step enc4 v4_zero (core s) (2 ^ 256 - 1) (2 ^ 192 * 2 ^ 64) (fun x => Q (starstar (x mod 2 ^ 64)))
    eq_refl xoshiro256_step_wf Hs v4_zero_wf eq_refl enc4_lt enc4_inj (fun i => xo256_nz _ i Hs Hz) (fun i j => xo256_distinct (core s) i j Hs (v4_nz _ Hz))) as H.
  rewrite (low_count starstar Q (2 ^ 192) (fun x _ => starstar_wf x) starstar_inj) in H. rewrite <- H. 
  apply count_plus_ext; [|reflexivity]. intros i. rewrite xoshiro256_value_eq. f_equal. f_equal. symmetry. unfold enc4. apply digit_low.
  exact (proj1 (proj2 (iter_wf v4_wf _ xoshiro256_step_wf i _ Hs))).
Qed.
Theorem C78_xoshiro256_each_word :
  forall s v, v4_wf (core s) -> v4_words (core s) <> [0;0;0;0] -> v < 2 ^ 64 ->
  count (fun i => xoshiro256_value s i =? v) (2 ^ 256 - 1) = 2 ^ 192 - (if v =? 0 then 1 else 0).
Proof.
  intros s v Hs Hz Hv. pose proof (C78_xoshiro256_equidistributed s (fun x => x =? v) Hs Hz) as H. cbn beta in H.
  rewrite count_eqb, N.mul_1_r, (N.eqb_sym 0 v) in H by exact Hv. rewrite <- H. symmetry. apply N.add_sub.
Qed.

(* Consecutive values. If the first n values determine a state, each list of n
   words but the one of zeros comes up exactly once in the period. *)
Definition same (l m : list N) : bool := if list_eq_dec N.eq_dec l m then true else false.
(* value i, ..., value (i + n - 1) *)
Definition run_of (value : N -> N) (n : nat) (i : N) : list N := map (fun j => value (i + N.of_nat j)) (seq 0 n).
Section Tuples.
  Context {A : Type} (D : A -> Prop) (T : A -> A) (w : A -> N) (zero s : A) (M C : N) (n : nat).
  Hypothesis HC : C = N.succ M.
  Hypothesis HC' : 2 ^ (64 * N.of_nat n) = C.
  Hypothesis HT : forall a, D a -> D (T a).
  Hypothesis Hs : D s.
  Hypothesis Hz : D zero.
  Hypothesis Tz : T zero = zero.
  Hypothesis Wz : w zero = 0.
  Hypothesis Ww : forall a, D a -> wf 64 (w a).
  Hypothesis Hinj : forall a b, D a -> D b -> (forall k, k < N.of_nat n -> w (N.iter k T a) = w (N.iter k T b)) -> a = b.
  Hypothesis Hnz : forall i, N.iter i T s <> zero.
  Hypothesis Hd : forall i j, N.iter i T s = N.iter j T s <-> i mod M = j mod M.
  Definition tuple (a : A) : list N := map (fun j => w (N.iter (N.of_nat j) T a)) (seq 0 n).
  Lemma tuple_length a : length (tuple a) = n.
  Proof. unfold tuple. now rewrite map_length, seq_length. Qed.
  Lemma tuple_wf a : D a -> Forall (wf 64) (tuple a).
  Proof. intros H. apply Forall_forall. intros x Hx. apply in_map_iff in Hx as (j & <- & _). apply Ww. now apply iter_wf. Qed.
  Lemma tuple_zero : pack (tuple zero) = 0.
  Proof.
    assert (Z : forall k, N.iter k T zero = zero).
    { intros k. induction k as [|k IH] using N.peano_ind; [reflexivity|]. now rewrite N.iter_succ, IH. }
    unfold tuple. induction (seq 0 n) as [|j l IH]; [reflexivity|]. cbn [map pack]. rewrite IH, Z, Wz. reflexivity.
  Qed.
  Lemma tuple_inj a b : D a -> D b -> pack (tuple a) = pack (tuple b) -> a = b.
  Proof.
    intros Ha Hb E. apply pack_inj in E; [|now rewrite !tuple_length|now apply tuple_wf..].
    apply Hinj; [assumption..|]. intros k Hk. apply (f_equal (fun l => nth (N.to_nat k) l 0)) in E. unfold tuple in E.
    rewrite !(nth_indep _ 0 (w (N.iter (N.of_nat 0) T a))) in E by (rewrite map_length, seq_length; lia).
    rewrite (map_nth (fun j => w (N.iter (N.of_nat j) T a))) in E.
    rewrite (nth_indep _ _ (w (N.iter (N.of_nat 0) T b))) in E by (rewrite map_length, seq_length; lia).
    rewrite (map_nth (fun j => w (N.iter (N.of_nat j) T b))), !seq_nth in E by lia. now rewrite Nat.add_0_l, N2Nat.id in E.
  Qed.
  Lemma tuples l : length l = n -> Forall (wf 64) l ->
    count (fun i => same (run_of (fun i => w (N.iter i T s)) n i) l) M + (if same (repeat 0 n) l then 1 else 0) = 1.
  Proof.
    intros Hl Hw. pose proof (period_count D T (fun a => pack (tuple a)) zero s M C (fun x => x =? pack l) HC HT Hs Hz tuple_zero) as H.
    rewrite count_eqb in H.
    - refine (eq_trans _ (H _ tuple_inj Hnz Hd)); [|intros a Ha; rewrite <- HC', <- (tuple_length a); now apply pack_wf, tuple_wf].
      apply count_plus_ext.
      + intros i. unfold same. assert (E : tuple (N.iter i T s) = run_of (fun i => w (N.iter i T s)) n i).
        { apply map_ext. intros j. cbv beta. now rewrite Niter_add. }
        rewrite <- E. destruct (list_eq_dec _ _ _) as [->|Hne]; [symmetry; apply N.eqb_refl|]. symmetry. apply N.eqb_neq. intros F. apply Hne.
        apply pack_inj in F; [exact F|now rewrite tuple_length|apply tuple_wf; now apply iter_wf|exact Hw].
      + unfold same. destruct (list_eq_dec _ _ _) as [<-|Hne].
        * assert (Z : pack (repeat 0 n) = 0) by (clear; induction n as [|m IH]; [reflexivity|]; cbn [repeat pack]; rewrite IH; reflexivity).
          now rewrite Z.
        * replace (0 =? pack l) with false; [reflexivity|]. symmetry. apply N.eqb_neq. intros F. apply Hne. 
          apply pack_inj; [now rewrite repeat_length|apply Forall_forall; intros x Hx; apply repeat_spec in Hx; now subst|exact Hw|].
          rewrite <- F. clear. induction n as [|m IH]; [reflexivity|]. cbn [repeat pack]. now rewrite IH.
    - rewrite <- HC', <- Hl. now apply pack_wf.
  Qed.
End Tuples.

(* Four consecutive values: each quadruple of words but (0, 0, 0, 0) comes up
   exactly once in the period. *)
Lemma xo256_four a b : v4_wf a -> v4_wf b -> v4_1 a = v4_1 b -> v4_1 (xoshiro256_step a) = v4_1 (xoshiro256_step b) ->
  v4_1 (xoshiro256_step (xoshiro256_step a)) = v4_1 (xoshiro256_step (xoshiro256_step b)) ->
  v4_1 (xoshiro256_step (xoshiro256_step (xoshiro256_step a))) = v4_1 (xoshiro256_step (xoshiro256_step (xoshiro256_step b))) -> a = b.
Proof.
  destruct a as [a0 a1 a2 a3], b as [b0 b1 b2 b3]. intros (Wa0 & Wa1 & Wa2 & Wa3) (Wb0 & Wb1 & Wb2 & Wb3) E0 E1 E2 E3.
  cbn [xoshiro256_step v4_0 v4_1 v4_2 v4_3] in *. subst b1. apply lxor_inj_l in E1.
  rewrite E1 in E2, E3. apply lxor_inj_l, lxor_inj_l in E2. rewrite E2 in E3. do 3 apply lxor_inj_l in E3.
  rewrite !(N.lxor_comm (rotl _ _ _)) in E3. apply lxor_inj_l, rotl_inj in E3; [|try lia; auto using wf_lxor..].
  rewrite E3 in E2. rewrite !(N.lxor_comm _ (N.lxor b3 a1)) in E2. apply lxor_inj_l in E2. subst b0.
  rewrite !(N.lxor_comm _ a0) in E1. apply lxor_inj_l in E1. rewrite !(N.lxor_comm _ a1) in E3. apply lxor_inj_l in E3. now subst.
Qed.

Definition all_zero (l : list N) : bool := forallb (N.eqb 0) l.
Lemma same_zero l n : length l = n -> same (repeat 0 n) l = all_zero l.
Proof.
  intros <-. unfold same. destruct (list_eq_dec _ _ _) as [E|E].
  - symmetry. rewrite <- E at 1. apply forallb_forall. intros x Hx. apply repeat_spec in Hx. now subst.
  - symmetry. apply not_true_iff_false. intros F. apply E. clear E. induction l as [|a l IH]; [reflexivity|].
    cbn [all_zero forallb] in F. apply andb_prop in F as [F1 F2]. apply N.eqb_eq in F1. subst a. cbn [length repeat]. f_equal. now apply IH.
Qed.
Lemma one_minus c z : c + (if z : bool then 1 else 0) = 1 -> c = if z then 0 else 1.
Proof. destruct z; lia. Qed.
Lemma xo256_first4 a b : v4_wf a -> v4_wf b ->
  (forall k, k < N.of_nat 4 -> starstar (v4_1 (N.iter k xoshiro256_step a)) = starstar (v4_1 (N.iter k xoshiro256_step b))) -> a = b.
Proof.
  intros Ha Hb H. assert (W : forall k x, v4_wf x -> v4_1 (N.iter k xoshiro256_step x) < 2 ^ 64).
  { intros k x Hx. exact (proj1 (proj2 (iter_wf v4_wf _ xoshiro256_step_wf k _ Hx))). }
  assert (G : forall k, k < 4 -> v4_1 (N.iter k xoshiro256_step a) = v4_1 (N.iter k xoshiro256_step b)).
  { intros k Hk. apply starstar_inj; [now apply W..|now apply H]. }
  apply xo256_four; [assumption..|exact (G 0 eq_refl)|exact (G 1 eq_refl)|exact (G 2 eq_refl)|exact (G 3 eq_refl)].
Qed.
Theorem C78_xoshiro256_four_dimensions :
  forall s l, v4_wf (core s) -> v4_words (core s) <> [0;0;0;0] -> length l = 4%nat -> Forall (wf 64) l ->
  count (fun i => same (run_of (xoshiro256_value s) 4 i) l) (2 ^ 256 - 1) = if all_zero l then 0 else 1.
Proof.
  intros s l Hs Hz Hl Hw. apply one_minus. rewrite <- (same_zero l 4 Hl).
  refine (eq_trans _ (tuples v4_wf xoshiro256_step (fun a => starstar (v4_1 a)) v4_zero (core s) (2 ^ 256 - 1) (2 ^ 256) 4 eq_refl eq_refl
    xoshiro256_step_wf Hs v4_zero_wf eq_refl eq_refl (fun a _ => starstar_wf (v4_1 a)) xo256_first4 (fun i => xo256_nz _ i Hs Hz)
    (fun i j => xo256_distinct (core s) i j Hs (v4_nz _ Hz)) l Hl Hw)).
  apply count_plus_ext; [|reflexivity]. intros i. f_equal. apply map_ext. intros j. apply xoshiro256_value_eq.
Qed.

(* ------------------------------------------------------------- Xoshiro512 *)
Lemma pack_cons x l : x < 2 ^ 64 -> pack (x :: l) = x + 2 ^ 64 * pack l.
Proof.
  intros H. cbn [pack]. rewrite N.shiftl_mul_pow2, N.mul_comm. apply N.bits_inj. intros k. rewrite N.lxor_spec.
  destruct (N.lt_ge_cases k 64) as [K|K].
  - rewrite N.mul_comm, N.mul_pow2_bits_low, xorb_false_r by exact K.
    rewrite <- (N.mod_pow2_bits_low (x + _) 64 k K), N.add_mod, N.mod_mul, N.add_0_r, N.mod_mod, N.mod_pow2_bits_low by (lia || discriminate). reflexivity.
  - rewrite (proj1 (wf_testbit 64 x) H k K), xorb_false_l. replace k with ((k - 64) + 64) by lia. rewrite <- !N.div_pow2_bits.
    rewrite N.mul_comm, N.div_mul, N.div_add by discriminate. now rewrite (N.div_small x).
Qed.
Definition enc8 (s : v8) : N := pack [v8_1 s; v8_0 s; v8_2 s; v8_3 s; v8_4 s; v8_5 s; v8_6 s; v8_7 s].
Lemma v8_list_wf s : v8_wf s -> Forall (wf 64) [v8_1 s; v8_0 s; v8_2 s; v8_3 s; v8_4 s; v8_5 s; v8_6 s; v8_7 s].
Proof. intros (H0 & H1 & H2 & H3 & H4 & H5 & H6 & H7). repeat apply Forall_cons; auto. Qed.
Lemma enc8_lt s : v8_wf s -> enc8 s < 2 ^ 512.
Proof. intros H. exact (pack_wf _ (v8_list_wf s H)). Qed.
Lemma enc8_inj a b : v8_wf a -> v8_wf b -> enc8 a = enc8 b -> a = b.
Proof.
  intros Ha Hb E. apply pack_inj in E; [|reflexivity|now apply v8_list_wf..].
  destruct a as [a0 a1 a2 a3 a4 a5 a6 a7], b as [b0 b1 b2 b3 b4 b5 b6 b7]. cbn [v8_0 v8_1 v8_2 v8_3 v8_4 v8_5 v8_6 v8_7] in E. now injection E as -> -> -> -> -> -> -> ->.
Qed.
Lemma v8_zero_wf : v8_wf v8_zero. Proof. repeat split. Qed.
Definition xoshiro512_value (s : xoshiro512) (i : N) : N := snd (xoshiro512_next64 (N.iter i xoshiro512_draw s)).
Lemma xoshiro512_value_eq s i : xoshiro512_value s i = starstar (v8_1 (N.iter i xoshiro512_step (core s))).
Proof. unfold xoshiro512_value. rewrite xoshiro512_draws. reflexivity. Qed.
Lemma xo512_nz s i : v8_wf s -> v8_words s <> [0;0;0;0;0;0;0;0] -> N.iter i xoshiro512_step s <> v8_zero.
Proof. intros Hs Hz E. apply (xoshiro512_nonzero i (Buf s false 0) Hs Hz). rewrite xoshiro512_draws. cbn [core]. now rewrite E. Qed.
Theorem C78_xoshiro512_equidistributed :
  forall s Q, v8_wf (core s) -> v8_words (core s) <> [0;0;0;0;0;0;0;0] ->
  count (fun i => Q (xoshiro512_value s i)) (2 ^ 512 - 1) + (if Q 0 then 1 else 0) = 2 ^ 448 * count Q (2 ^ 64).
Proof.
  intros s Q Hs Hz.
  pose proof (period_count v8_wf xoshiro512_step enc8 v8_zero (core s) (2 ^ 512 - 1) (2 ^ 448 * 2 ^ 64) (fun x => Q (starstar (x mod 2 ^ 64)))
    eq_refl xoshiro512_step_wf Hs v8_zero_wf eq_refl enc8_lt enc8_inj (fun i => xo512_nz _ i Hs Hz) (fun i j => xo512_distinct (core s) i j Hs (v8_nz _ Hz))) as H.
  rewrite (low_count starstar Q (2 ^ 448) (fun x _ => starstar_wf x) starstar_inj) in H. rewrite <- H.
  assert (W : forall i, v8_1 (N.iter i xoshiro512_step (core s)) < 2 ^ 64) by (intros i; exact (proj1 (proj2 (iter_wf v8_wf _ xoshiro512_step_wf i _ Hs)))).
  apply count_plus_ext; [|reflexivity]. intros i. rewrite xoshiro512_value_eq. f_equal. f_equal. symmetry. unfold enc8. rewrite pack_cons by apply W. apply digit_low, W.
Qed.
Theorem C78_xoshiro512_each_word :
  forall s v, v8_wf (core s) -> v8_words (core s) <> [0;0;0;0;0;0;0;0] -> v < 2 ^ 64 ->
  count (fun i => xoshiro512_value s i =? v) (2 ^ 512 - 1) = 2 ^ 448 - (if v =? 0 then 1 else 0).
Proof.
  intros s v Hs Hz Hv. pose proof (C78_xoshiro512_equidistributed s (fun x => x =? v) Hs Hz) as H. cbn beta in H.
  rewrite count_eqb, N.mul_1_r, (N.eqb_sym 0 v) in H by exact Hv. rewrite <- H. symmetry. apply N.add_sub.
Qed.
(* The second words of eight consecutive states determine the third of them. *)
Lemma xor_same a b c d : N.lxor a b = N.lxor c d -> a = c -> b = d.
Proof. intros E ->. now apply lxor_inj_l in E. Qed.
Section Eight.
  Variables (a b : v8) (Wa : v8_wf a) (Wb : v8_wf b).
  Let at_ (f : v8 -> N) (k : N) : Prop := f (N.iter k xoshiro512_step a) = f (N.iter k xoshiro512_step b).
  Hypothesis H1 : forall k, k < 8 -> at_ v8_1 k.
  Let mix (v : v8) : N := N.lxor (v8_7 v) (v8_3 v).
  Lemma eight_2 k : k < 7 -> at_ v8_2 (N.succ k).
  Proof.
    intros H. pose proof (H1 (N.succ k) ltac:(lia)) as E. unfold at_ in *. rewrite !N.iter_succ in *.
    exact (xor_same _ _ _ _ E (H1 k ltac:(lia))).
  Qed.
  Lemma eight_0 k : 0 < k -> k < 7 -> at_ v8_0 k.
  Proof.
    intros H0 H. pose proof (eight_2 k H) as E. assert (P : at_ v8_2 k) by (replace k with (N.succ (N.pred k)) by lia; apply eight_2; lia).
    unfold at_ in *. rewrite !N.iter_succ in *. exact (xor_same _ _ _ _ E P).
  Qed.
  Lemma eight_6 k : 0 < k -> k < 6 -> at_ v8_6 k.
  Proof.
    intros H0 H. pose proof (eight_0 (N.succ k) ltac:(lia) ltac:(lia)) as E. unfold at_ in *. rewrite !N.iter_succ in *.
    exact (xor_same _ _ _ _ E (eight_0 k H0 ltac:(lia))).
  Qed.
  Lemma eight_mix k : 0 < k -> k < 5 -> at_ mix k.
  Proof.
    intros H0 H. pose proof (eight_6 (N.succ k) ltac:(lia) ltac:(lia)) as E. pose proof (eight_6 k H0 ltac:(lia)) as P. pose proof (H1 k ltac:(lia)) as S1.
    unfold at_ in *. rewrite !N.iter_succ in *. cbn [xoshiro512_step v8_6] in E. rewrite S1 in E. rewrite !(N.lxor_comm _ (wshl _ _ _)) in E.
    apply lxor_inj_l in E. exact (xor_same _ _ _ _ E P).
  Qed.
  Lemma eight_7 k : 0 < k -> k < 5 -> at_ v8_7 (N.succ k).
  Proof.
    intros H0 H. pose proof (eight_mix k H0 H) as E. unfold at_ in *. rewrite !N.iter_succ. cbn [xoshiro512_step v8_7]. unfold mix in E. now rewrite E.
  Qed.
  Lemma eight_3 k : 1 < k -> k < 5 -> at_ v8_3 k.
  Proof.
    intros H0 H. pose proof (eight_mix k ltac:(lia) H) as E. assert (P : at_ v8_7 k) by (replace k with (N.succ (N.pred k)) by lia; apply eight_7; lia).
    exact (xor_same _ _ _ _ E P).
  Qed.
  Lemma eight_4 k : 1 < k -> k < 4 -> at_ v8_4 k.
  Proof.
    intros H0 H. pose proof (eight_3 (N.succ k) ltac:(lia) ltac:(lia)) as E. unfold at_ in *. rewrite !N.iter_succ in *.
    exact (xor_same _ _ _ _ E (eight_3 k H0 ltac:(lia))).
  Qed.
  Lemma eight_5 : at_ v8_5 2.
  Proof.
    pose proof (eight_4 (N.succ 2) eq_refl eq_refl) as E. unfold at_ in *. rewrite !N.iter_succ in E.
    pose proof (xor_same _ _ _ _ E (eight_4 2 eq_refl eq_refl)) as F. rewrite !(N.lxor_comm (v8_5 _)) in F. exact (xor_same _ _ _ _ F (H1 2 eq_refl)).
  Qed.
  Lemma eight_words : a = b.
  Proof.
    assert (E : N.iter 2 xoshiro512_step a = N.iter 2 xoshiro512_step b).
    { pose proof (eight_0 2 eq_refl eq_refl) as E0. pose proof (H1 2 eq_refl) as E1. pose proof (eight_2 1 eq_refl) as E2. pose proof (eight_3 2 eq_refl eq_refl) as E3.
      pose proof (eight_4 2 eq_refl eq_refl) as E4. pose proof eight_5 as E5. pose proof (eight_6 2 eq_refl eq_refl) as E6. pose proof (eight_7 1 eq_refl eq_refl) as E7.
      unfold at_ in *. change (N.succ 1) with 2 in *. destruct (N.iter 2 xoshiro512_step a) as [p0 p1 p2 p3 p4 p5 p6 p7], (N.iter 2 xoshiro512_step b) as [q0 q1 q2 q3 q4 q5 q6 q7].
      cbn [v8_0 v8_1 v8_2 v8_3 v8_4 v8_5 v8_6 v8_7] in *. now subst. }
    apply xoshiro512_step_inj in E; [|now apply xoshiro512_step_wf..]. now apply xoshiro512_step_inj in E.
  Qed.
End Eight.
Lemma xo512_first8 a b : v8_wf a -> v8_wf b ->
  (forall k, k < N.of_nat 8 -> starstar (v8_1 (N.iter k xoshiro512_step a)) = starstar (v8_1 (N.iter k xoshiro512_step b))) -> a = b.
Proof.
  intros Ha Hb H. assert (W : forall k x, v8_wf x -> v8_1 (N.iter k xoshiro512_step x) < 2 ^ 64).
  { intros k x Hx. exact (proj1 (proj2 (iter_wf v8_wf _ xoshiro512_step_wf k _ Hx))). }
  apply eight_words; [assumption..|]. intros k Hk. apply starstar_inj; [now apply W..|now apply H].
Qed.
Theorem C78_xoshiro512_eight_dimensions :
  forall s l, v8_wf (core s) -> v8_words (core s) <> [0;0;0;0;0;0;0;0] -> length l = 8%nat -> Forall (wf 64) l ->
  count (fun i => same (run_of (xoshiro512_value s) 8 i) l) (2 ^ 512 - 1) = if all_zero l then 0 else 1.
Proof.
  intros s l Hs Hz Hl Hw. apply one_minus. rewrite <- (same_zero l 8 Hl).
  refine (eq_trans _ (tuples v8_wf xoshiro512_step (fun a => starstar (v8_1 a)) v8_zero (core s) (2 ^ 512 - 1) (2 ^ 512) 8 eq_refl eq_refl
    xoshiro512_step_wf Hs v8_zero_wf eq_refl eq_refl (fun a _ => starstar_wf (v8_1 a)) xo512_first8 (fun i => xo512_nz _ i Hs Hz)
    (fun i j => xo512_distinct (core s) i j Hs (v8_nz _ Hz)) l Hl Hw)).
  apply count_plus_ext; [|reflexivity]. intros i. f_equal. apply map_ext. intros j. apply xoshiro512_value_eq.
Qed.

(* ----------------------------------------------- Xoroshiro128, + and ++ *)
Definition enc2 (s : v2) : N := v2_1 s + 2 ^ 64 * v2_0 s.
Lemma enc2_lt s : v2_wf s -> enc2 s < 2 ^ 64 * 2 ^ 64.
Proof. intros (H0 & H1). now apply digit_lt. Qed.
Lemma enc2_inj a b : v2_wf a -> v2_wf b -> enc2 a = enc2 b -> a = b.
Proof. destruct a as [a0 a1], b as [b0 b1]. intros (H0 & H1) (G0 & G1) E. unfold enc2 in E. cbn [v2_0 v2_1] in *. apply digit_inj in E as [-> ->]; [reflexivity|assumption..]. Qed.
Lemma v2_zero_wf : v2_wf v2_zero. Proof. repeat split. Qed.
Definition xoroshiro128_value (s : xoroshiro128) (i : N) : N := snd (xoroshiro128_next64 (N.iter i xoroshiro128_draw s)).
Lemma xoroshiro128_value_eq s i :
  xoroshiro128_value s i = xoroshiro_out (xo_pp (core s)) (N.iter i (xoroshiro_step (xo_pp (core s))) (xo_s (core s))).
Proof. unfold xoroshiro128_value. rewrite xoroshiro128_draws. reflexivity. Qed.
Lemma xo128_nz pp s i : v2_wf s -> v2_words s <> [0;0] -> N.iter i (xoroshiro_step pp) s <> v2_zero.
Proof. intros Hs Hz E. apply (xoroshiro128_nonzero i (Buf (XC s pp) false 0) Hs Hz). rewrite xoroshiro128_draws. cbn [core xo_pp xo_s]. now rewrite E. Qed.
Lemma xo128_both pp s i j : v2_wf s -> v2_words s <> [0;0] ->
  (N.iter i (xoroshiro_step pp) s = N.iter j (xoroshiro_step pp) s <-> i mod (2 ^ 128 - 1) = j mod (2 ^ 128 - 1)).
Proof. intros Hs Hz. destruct pp; [exact (xo128pp_distinct s i j Hs (v2_nz _ Hz))|exact (xo128_distinct s i j Hs (v2_nz _ Hz))]. Qed.
Lemma xo128_out_wf pp s : xoroshiro_out pp s < 2 ^ 64.
Proof. unfold xoroshiro_out. destruct pp; apply wf_wadd. Qed.
Lemma xo128_out_inj pp h l l' : l < 2 ^ 64 -> l' < 2 ^ 64 -> xoroshiro_out pp (V2 h l) = xoroshiro_out pp (V2 h l') -> l = l'.
Proof.
  intros H H' E. unfold xoroshiro_out in E. cbn [v2_0 v2_1] in E. destruct pp.
  - apply wadd_inj_r in E; [|apply wf_rotl; apply wf_wadd..]. apply rotl_inj in E; [|apply wf_wadd|apply wf_wadd|reflexivity|reflexivity]. now apply wadd_inj_l in E.
  - now apply wadd_inj_l in E.
Qed.
Lemma xoroshiro_step_wf' pp a : v2_wf a -> v2_wf (xoroshiro_step pp a).
Proof. exact (xoroc_step_wf (XC a pp)). Qed.
Theorem C78_xoroshiro128_equidistributed :
  forall s Q, v2_wf (xo_s (core s)) -> v2_words (xo_s (core s)) <> [0;0] ->
  count (fun i => Q (xoroshiro128_value s i)) (2 ^ 128 - 1) + (if Q 0 then 1 else 0) = 2 ^ 64 * count Q (2 ^ 64).
Proof.
  intros s Q Hs Hz. set (pp := xo_pp (core s)).
  pose proof (period_count v2_wf (xoroshiro_step pp) enc2 v2_zero (xo_s (core s)) (2 ^ 128 - 1) (2 ^ 64 * 2 ^ 64)
    (fun x => Q (xoroshiro_out pp (V2 (x / 2 ^ 64) (x mod 2 ^ 64)))) eq_refl (xoroshiro_step_wf' pp) Hs v2_zero_wf eq_refl enc2_lt enc2_inj
    (fun i => xo128_nz pp _ i Hs Hz) (fun i j => xo128_both pp (xo_s (core s)) i j Hs Hz)) as H.
  rewrite (count_low (fun h l => xoroshiro_out pp (V2 h l)) Q (2 ^ 64) (2 ^ 64)) in H;
    [|intros; apply xo128_out_wf|intros h l l' _ Hl Hl' E; exact (xo128_out_inj pp h l l' Hl Hl' E)].
  rewrite <- H. apply count_plus_ext.
  - intros i. rewrite xoroshiro128_value_eq. fold pp. f_equal.
    pose proof (iter_wf v2_wf _ (xoroshiro_step_wf' pp) i _ Hs) as (W0 & W1). destruct (N.iter i (xoroshiro_step pp) (xo_s (core s))) as [x0 x1].
    unfold enc2. cbn [v2_0 v2_1] in *. now rewrite digit_low, digit_high.
  - destruct pp; reflexivity.
Qed.
Theorem C78_xoroshiro128_each_word :
  forall s v, v2_wf (xo_s (core s)) -> v2_words (xo_s (core s)) <> [0;0] -> v < 2 ^ 64 ->
  count (fun i => xoroshiro128_value s i =? v) (2 ^ 128 - 1) = 2 ^ 64 - (if v =? 0 then 1 else 0).
Proof.
  intros s v Hs Hz Hv. pose proof (C78_xoroshiro128_equidistributed s (fun x => x =? v) Hs Hz) as H. cbn beta in H.
  rewrite count_eqb, N.mul_1_r, (N.eqb_sym 0 v) in H by exact Hv. rewrite <- H. symmetry. apply N.add_sub.
Qed.

(* -------------------------------------------------------------------- LXM *)
Definition lxm_value (s : lxm) (i : N) : N := snd (lxm_next64 (N.iter i lxm_draw s)).
Lemma lxm_value_eq s i : lxm_value s i =
  murmur_hash3 (wadd 64 (v4_0 (N.iter i xoshiro256_step (lx_x (core s)))) (N.iter i (lcg_step 64 LXM_MULT (lx_b (core s))) (lx_lcg (core s)))).
Proof. unfold lxm_value. rewrite lxm_draws. reflexivity. Qed.
Lemma murmur_hash3_wf x : wf 64 (murmur_hash3 x).
Proof. unfold murmur_hash3. apply wf_lxor; auto using wf_shr, wf_wmul. Qed.
Lemma mod_diff a i j : a <> 0 -> i <= j -> i mod a = j mod a -> (j - i) mod a = 0.
Proof.
  intros Ha L E. apply N2Z.inj. rewrite N2Z.inj_mod, N2Z.inj_sub by exact L. apply (f_equal Z.of_N) in E. rewrite !N2Z.inj_mod in E.
  rewrite Zminus_mod, E, Z.sub_diag, Zmod_0_l. reflexivity.
Qed.
Lemma crt_eq a b i j : a <> 0 -> b <> 0 -> N.gcd a b = 1 -> i < a * b -> j < a * b -> i mod a = j mod a -> i mod b = j mod b -> i = j.
Proof.
  intros Ha Hb Hg. assert (G : forall i j, i <= j -> i < a * b -> j < a * b -> i mod a = j mod a -> i mod b = j mod b -> i = j).
  { clear i j. intros i j L Hi Hj Ea Eb. assert (Z : (j - i) mod (a * b) = 0) by (apply crt_mod; [assumption..|]; split; now apply mod_diff).
    rewrite N.mod_small in Z by lia. lia. }
  intros Hi Hj Ea Eb. destruct (N.le_ge_cases i j) as [L|L]; [now apply G|symmetry; now apply G].
Qed.
Lemma lxm_count M s Q : M <> 0 -> N.gcd M (2 ^ 64) = 1 ->
  (forall v i j, v4_wf v -> v <> v4_zero -> (N.iter i xoshiro256_step v = N.iter j xoshiro256_step v <-> i mod M = j mod M)) ->
  lxmc_wf (core s) -> v4_words (lx_x (core s)) <> [0;0;0;0] -> N.odd (lx_b (core s)) = true ->
  count (fun i => Q (lxm_value s i)) (M * 2 ^ 64) = M * count Q (2 ^ 64).
Proof.
  intros HM Hg HP (Hx & Hl & Hb) Hz Ho. set (lc := fun i => N.iter i (lcg_step 64 LXM_MULT (lx_b (core s))) (lx_lcg (core s))).
  assert (Wl : forall i, lc i < 2 ^ 64) by (intros i; apply (iter_wf (wf 64)); [intros; apply wf_lcg_step|exact Hl]).
  set (f := fun h l => murmur_hash3 (wadd 64 (v4_0 (N.iter h xoshiro256_step (lx_x (core s)))) l)).
  rewrite <- (count_low f Q M (2 ^ 64));
    [|intros; apply murmur_hash3_wf|intros h l m _ L L' E; apply murmur_hash3_inj in E; [|apply wf_wadd..]; now apply wadd_inj_l in E].
  rewrite <- (count_perm (fun i => lc i + 2 ^ 64 * (i mod M)) (fun x => Q (f (x / 2 ^ 64) (x mod 2 ^ 64)))).
  - apply count_ext. intros i _. rewrite digit_low, digit_high by apply Wl. rewrite lxm_value_eq. unfold f. fold (lc i). 
    replace (N.iter (i mod M) xoshiro256_step (lx_x (core s))) with (N.iter i xoshiro256_step (lx_x (core s))); [reflexivity|].
    apply HP; [exact Hx|now apply v4_nz|]. symmetry. now apply N.mod_mod.
  - intros i _. apply digit_lt; [apply Wl|now apply N.mod_lt].
  - intros i j Hi Hj E. apply digit_inj in E as [E1 E2]; [|apply Wl..]. apply (crt_eq M (2 ^ 64)); [assumption|discriminate|assumption..|].
    unfold lc in E1. apply (lcg_states_distinct 64 LXM_MULT (lx_b (core s)) (lx_lcg (core s))) in E1; [exact E1|reflexivity|assumption..].
Qed.
Theorem C78_lxm_equidistributed :
  forall s Q, lxmc_wf (core s) -> v4_words (lx_x (core s)) <> [0;0;0;0] -> N.odd (lx_b (core s)) = true ->
  count (fun i => Q (lxm_value s i)) ((2 ^ 256 - 1) * 2 ^ 64) = (2 ^ 256 - 1) * count Q (2 ^ 64).
Proof. intros s Q. exact (lxm_count (2 ^ 256 - 1) s Q lxm_M1 lxm_M2 xo256_distinct). Qed.
Theorem C78_lxm_each_word :
  forall s v, lxmc_wf (core s) -> v4_words (lx_x (core s)) <> [0;0;0;0] -> N.odd (lx_b (core s)) = true -> v < 2 ^ 64 ->
  count (fun i => lxm_value s i =? v) ((2 ^ 256 - 1) * 2 ^ 64) = 2 ^ 256 - 1.
Proof.
  intros s v Hs Hz Ho Hv. pose proof (C78_lxm_equidistributed s (fun x => x =? v) Hs Hz Ho) as H. cbn beta in H. now rewrite count_eqb, N.mul_1_r in H.
Qed.

(* ----------------------------------------------------------- Xorshift1024 *)
Lemma lxor_shl_inj w k a b : 0 < k -> wf w a -> wf w b -> N.lxor a (wshl w a k) = N.lxor b (wshl w b k) -> a = b.
Proof.
  intros Hk Ha Hb E. apply N.bits_inj. intros i. induction i as [i IH] using (well_founded_induction N.lt_wf_0).
  destruct (N.lt_ge_cases i w) as [L|L]; [|now rewrite (proj1 (wf_testbit w a) Ha), (proj1 (wf_testbit w b) Hb)].
  apply (f_equal (fun x => N.testbit x i)) in E. rewrite !N.lxor_spec in E. unfold wshl, trunc in E. rewrite !N.mod_pow2_bits_low in E by exact L.
  destruct (N.lt_ge_cases i k) as [K|K].
  - rewrite !N.shiftl_spec_low, !xorb_false_r in E by exact K. exact E.
  - rewrite !N.shiftl_spec_high', (IH (i - k)) in E by lia. revert E. now destruct (N.testbit a i), (N.testbit b i), (N.testbit b (i - k)).
Qed.
Lemma xs_mix_inj a x y : wf 64 a -> wf 64 x -> wf 64 y -> xs_mix a x = xs_mix a y -> x = y.
Proof.
  intros Ha Hx Hy E. unfold xs_mix in E. apply lxor_inj_r in E.
  rewrite !N.lxor_assoc, !(N.lxor_comm a), <- !N.lxor_assoc in E. apply lxor_inj_r in E.
  apply (lxor_shr_inj 64) in E; [|reflexivity|apply wf_lxor; [assumption|apply wf_trunc]..].
  now apply lxor_shl_inj in E.
Qed.
(* the window of the last 16 words, as a list, and one draw on it *)
Definition win_ok (l : list N) : Prop := length l = 16%nat /\ Forall (wf 64) l.
Definition win_step (l : list N) : list N := xs_mix (nth 0 l 0) (nth 1 l 0) :: skipn 2 l ++ [nth 0 l 0].
Definition win_word (l : list N) : N := wmul 64 (nth 0 l 0) 0x9e3779b97f4a7c13.
Lemma win_nth l k : win_ok l -> wf 64 (nth k l 0).
Proof. intros [_ H]. destruct (Nat.lt_ge_cases k (length l)); [now apply Forall_nth|now rewrite nth_overflow]. Qed.
Lemma win_step_ok l : win_ok l -> win_ok (win_step l).
Proof.
  intros H. pose proof (win_nth l 0 H) as W0. pose proof (win_nth l 1 H) as W1. destruct H as [Hl Hw]. split.
  - unfold win_step. cbn [length]. rewrite app_length, skipn_length, Hl. reflexivity.
  - apply Forall_cons; [now apply wf_mix|]. apply Forall_app. split; [|now repeat constructor]. rewrite <- (firstn_skipn 2 l) in Hw. now apply Forall_app in Hw.
Qed.
Lemma win_step_pack l : win_ok l -> pack (win_step l) = xs_T (pack l).
Proof.
  intros [Hl Hw]. destruct l as [|w0 [|w1 r]]; try discriminate. inversion Hw as [|? ? H0 Hw1]; subst. inversion Hw1; subst.
  symmetry. apply xs_T_pack; [assumption..|]. cbn in Hl. lia.
Qed.
Lemma win_iter_ok k l : win_ok l -> win_ok (N.iter k win_step l).
Proof. apply iter_wf. exact win_step_ok. Qed.
Lemma win_iter_pack k l : win_ok l -> pack (N.iter k win_step l) = N.iter k xs_T (pack l).
Proof. intros H. induction k as [|k IH] using N.peano_ind; [reflexivity|]. rewrite !N.iter_succ, win_step_pack, IH; [reflexivity|now apply win_iter_ok]. Qed.
Lemma wl_ok c : xs_ok c -> win_ok (wl c).
Proof. intros H. split; [apply wl_length|now apply wl_wf]. Qed.
Lemma wl_iter k c : xs_ok c -> wl (N.iter k xs_draw c) = N.iter k win_step (wl c).
Proof. intros H. induction k as [|k IH] using N.peano_ind; [reflexivity|]. rewrite !N.iter_succ, <- IH. apply xs_next_window. now apply xs_draws_ok. Qed.
Definition xorshift1024_value (c : xsc) (i : N) : N :=
  match xorshift1024_next (N.iter i xs_draw c) with Some (_, v) => v | None => 0 end.
Lemma xorshift1024_value_eq c i : xs_ok c -> xorshift1024_value c i = win_word (N.iter i win_step (win_step (wl c))).
Proof.
  intros H. rewrite <- N.iter_succ_r, N.iter_succ, <- wl_iter by exact H. pose proof (xs_draws_ok i c H) as Hc. unfold xorshift1024_value.
  generalize (N.iter i xs_draw c) Hc. clear. intros c (Hl & Hf & Hp). cases16 c Hl; reflexivity.
Qed.
Lemma pack_zero : pack (repeat 0 16) = 0. Proof. reflexivity. Qed.
Lemma win_zero_ok : win_ok (repeat 0 16). Proof. split; [reflexivity|repeat constructor]. Qed.
Lemma win_pack_inj a b : win_ok a -> win_ok b -> pack a = pack b -> a = b.
Proof. intros [La Wa] [Lb Wb]. apply pack_inj; [congruence|assumption..]. Qed.
Lemma win_pack_lt a : win_ok a -> pack a < 2 ^ 1024.
Proof. intros [La Wa]. pose proof (pack_wf a Wa) as H. now rewrite La in H. Qed.
Lemma wl_nonzero c : xs_ok c -> xs_s c <> repeat 0 16 -> pack (win_step (wl c)) <> 0.
Proof.
  intros Hc Hz E. rewrite win_step_pack in E by now apply wl_ok. change 0 with (xs_T 0) in E.
  apply xs_T_inj in E; [|exact (win_wf c Hc)|reflexivity]. now apply Hz, win_zero.
Qed.
Lemma win_iter_nz l i : win_ok l -> pack l <> 0 -> N.iter i win_step l <> repeat 0 16.
Proof.
  intros Hl Hz E. apply (f_equal pack) in E. rewrite win_iter_pack, pack_zero in E by exact Hl.
  exact (l_nonzero _ _ _ _ xs_linear phi1024 phi1024_annihilates xs1024_odd i (pack l) (win_pack_lt l Hl) Hz E).
Qed.
Lemma win_distinct l i j : win_ok l -> pack l <> 0 ->
  (N.iter i win_step l = N.iter j win_step l <-> i mod (2 ^ 1024 - 1) = j mod (2 ^ 1024 - 1)).
Proof.
  intros Hl Hz. etransitivity; [|exact (xs1024_distinct (pack l) i j (win_pack_lt l Hl) Hz)]. rewrite <- !win_iter_pack by exact Hl. split; [now intros ->|].
  apply win_pack_inj; now apply win_iter_ok.
Qed.
Definition spread (x : N) : N := wmul 64 x 0x9e3779b97f4a7c13.
Lemma spread_inj x y : x < 2 ^ 64 -> y < 2 ^ 64 -> spread x = spread y -> x = y.
Proof. intros Hx Hy E. unfold spread in E. rewrite !(wmul_comm 64 _ 0x9e3779b97f4a7c13) in E. now apply odd_mul_inj in E. Qed.
Lemma xs_count_gen M c Q : 2 ^ 960 * 2 ^ 64 = N.succ M ->
  (forall l i j, win_ok l -> pack l <> 0 -> (N.iter i win_step l = N.iter j win_step l <-> i mod M = j mod M)) ->
  xs_ok c -> xs_s c <> repeat 0 16 ->
  count (fun i => Q (xorshift1024_value c i)) M + (if Q 0 then 1 else 0) = 2 ^ 960 * count Q (2 ^ 64).
Proof.
  intros HM HD Hc Hz. pose proof (win_step_ok _ (wl_ok c Hc)) as W. pose proof (wl_nonzero c Hc Hz) as Nz.
  pose proof (period_count win_ok win_step pack (repeat 0 16) (win_step (wl c)) M (2 ^ 960 * 2 ^ 64) (fun x => Q (spread (x mod 2 ^ 64)))
    HM win_step_ok W win_zero_ok pack_zero win_pack_lt win_pack_inj (fun i => win_iter_nz _ i W Nz) (fun i j => HD _ i j W Nz)) as H.
  rewrite (low_count spread Q (2 ^ 960) (fun x _ => wf_wmul 64 _ _) spread_inj) in H. rewrite <- H.
  apply count_plus_ext; [|reflexivity]. intros i. rewrite (xorshift1024_value_eq c i Hc). unfold win_word, spread. do 2 f_equal.
  pose proof (win_iter_ok i _ W) as [Hl Hw]. destruct (N.iter i win_step (win_step (wl c))) as [|x l]; [discriminate|].
  inversion Hw; subst. cbn [nth]. rewrite pack_cons by assumption. symmetry. now apply digit_low.
Qed.
Theorem C78_xorshift1024_equidistributed :
  forall c Q, xs_ok c -> xs_s c <> repeat 0 16 ->
  count (fun i => Q (xorshift1024_value c i)) (2 ^ 1024 - 1) + (if Q 0 then 1 else 0) = 2 ^ 960 * count Q (2 ^ 64).
Proof. intros c Q. exact (xs_count_gen (2 ^ 1024 - 1) c Q eq_refl win_distinct). Qed.
Theorem C78_xorshift1024_each_word :
  forall c v, xs_ok c -> xs_s c <> repeat 0 16 -> v < 2 ^ 64 ->
  count (fun i => xorshift1024_value c i =? v) (2 ^ 1024 - 1) = 2 ^ 960 - (if v =? 0 then 1 else 0).
Proof.
  intros c v Hc Hz Hv. pose proof (C78_xorshift1024_equidistributed c (fun x => x =? v) Hc Hz) as H. cbn beta in H.
  rewrite count_eqb, N.mul_1_r, (N.eqb_sym 0 v) in H by exact Hv. rewrite <- H. symmetry. apply N.add_sub.
Qed.
Lemma nth_skip2 {A} (l : list A) m d : nth m (skipn 2 l) d = nth (S (S m)) l d.
Proof. destruct l as [|x [|y l]]; cbn [skipn nth]; [now destruct m..|reflexivity]. Qed.
(* 16 consecutive values determine the window *)
Lemma win_shift l k m : win_ok l -> (m + k <= 14)%nat -> nth (S m) (N.iter (N.of_nat k) win_step l) 0 = nth (S m + k) l 0.
Proof.
  intros Hl. revert m. induction k as [|k IH]; intros m H; [now rewrite Nat.add_0_r|].
  rewrite Nat2N.inj_succ, N.iter_succ. unfold win_step at 1. cbn [nth].
  rewrite app_nth1 by (rewrite skipn_length, (proj1 (win_iter_ok _ l Hl)); lia). rewrite nth_skip2.
  rewrite IH by lia. f_equal. lia.
Qed.
Lemma win_first16 a b : win_ok a -> win_ok b ->
  (forall k, k < N.of_nat 16 -> win_word (N.iter k win_step a) = win_word (N.iter k win_step b)) -> a = b.
Proof.
  intros Ha Hb H.
  assert (G : forall k, (k < 16)%nat -> nth 0 (N.iter (N.of_nat k) win_step a) 0 = nth 0 (N.iter (N.of_nat k) win_step b) 0).
  { intros k Hk. apply spread_inj; [apply win_nth; now apply win_iter_ok..|]. apply H. lia. }
  apply (nth_ext _ _ 0 0); [now rewrite (proj1 Ha), (proj1 Hb)|]. intros k Hk. rewrite (proj1 Ha) in Hk. destruct k as [|k]; [exact (G 0%nat Hk)|].
  pose proof (G (S k) Hk) as E. rewrite Nat2N.inj_succ, !N.iter_succ in E. unfold win_step at 1 3 in E. cbn [nth] in E. rewrite (G k) in E by lia.
  rewrite !(win_shift _ k 0) in E by (assumption || lia). change (1 + k)%nat with (S k) in E.
  apply xs_mix_inj in E; [exact E|..]; apply win_nth; try assumption. now apply win_iter_ok.
Qed.
Lemma xs_tuples_gen M C c l : C = N.succ M -> 2 ^ (64 * N.of_nat 16) = C ->
  (forall l i j, win_ok l -> pack l <> 0 -> (N.iter i win_step l = N.iter j win_step l <-> i mod M = j mod M)) ->
  xs_ok c -> xs_s c <> repeat 0 16 -> length l = 16%nat -> Forall (wf 64) l ->
  count (fun i => same (run_of (xorshift1024_value c) 16 i) l) M = if all_zero l then 0 else 1.
Proof.
  intros HM HC HD Hc Hz Hl Hw. pose proof (win_step_ok _ (wl_ok c Hc)) as W. pose proof (wl_nonzero c Hc Hz) as Nz.
  apply one_minus. rewrite <- (same_zero l 16 Hl).
  refine (eq_trans _ (tuples win_ok win_step win_word (repeat 0 16) (win_step (wl c)) M C 16 HM HC
    win_step_ok W win_zero_ok eq_refl eq_refl (fun a _ => wf_wmul 64 _ _) win_first16 (fun i => win_iter_nz _ i W Nz) (fun i j => HD _ i j W Nz) l Hl Hw)).
  apply count_plus_ext; [|reflexivity]. intros i. f_equal. apply map_ext. intros j. now apply xorshift1024_value_eq.
Qed.
Theorem C78_xorshift1024_sixteen_dimensions :
  forall c l, xs_ok c -> xs_s c <> repeat 0 16 -> length l = 16%nat -> Forall (wf 64) l ->
  count (fun i => same (run_of (xorshift1024_value c) 16 i) l) (2 ^ 1024 - 1) = if all_zero l then 0 else 1.
Proof. intros c l. exact (xs_tuples_gen (2 ^ 1024 - 1) (2 ^ 1024) c l eq_refl eq_refl win_distinct). Qed.
Example C78_linear_case :
  (v4_wf (V4 1 0 0 0) /\ v4_words (V4 1 0 0 0) <> [0;0;0;0]) /\ (v8_wf (V8 0 0 0 0 0 0 0 5) /\ v8_words (V8 0 0 0 0 0 0 0 5) <> [0;0;0;0;0;0;0;0]) /\
  (v2_wf (V2 0 7) /\ v2_words (V2 0 7) <> [0;0]) /\ (lxmc_wf (LX (V4 0 0 0 1) 3 5) /\ N.odd 5 = true) /\
  (xs_ok (XS (repeat 9 16) 3) /\ xs_s (XS (repeat 9 16) 3) <> repeat 0 16) /\
  run_of (xoshiro256_value (Buf (V4 1 2 3 4) false 0)) 4 0 = [11520; 0; 1509978240; 1215971899390074240] /\
  all_zero [0;0;0;1] = false /\ Forall (wf 64) [0;0;0;1].
Proof.
  split; [split; [repeat split|discriminate]|]. split; [split; [repeat split|discriminate]|]. split; [split; [repeat split|discriminate]|].
  split; [split; [repeat split|reflexivity]|]. split; [split; [split; [reflexivity|split; [repeat constructor|split; [discriminate|reflexivity]]]|discriminate]|].
  split; [vm_compute; reflexivity|]. split; [reflexivity|]. repeat constructor.
Qed.

Print Assumptions C78_xoshiro256_equidistributed.
Print Assumptions C78_xoshiro256_each_word.
Print Assumptions C78_xoshiro256_four_dimensions.
Print Assumptions C78_xoshiro512_equidistributed.
Print Assumptions C78_xoshiro512_each_word.
Print Assumptions C78_xoshiro512_eight_dimensions.
Print Assumptions C78_xoroshiro128_equidistributed.
Print Assumptions C78_xoroshiro128_each_word.
Print Assumptions C78_lxm_equidistributed.
Print Assumptions C78_lxm_each_word.
Print Assumptions C78_xorshift1024_equidistributed.
Print Assumptions C78_xorshift1024_each_word.
Print Assumptions C78_xorshift1024_sixteen_dimensions.
