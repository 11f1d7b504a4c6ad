(* Linear maps over GF(2) and evaluation of polynomials at them: the algebra
   behind the jump functions. Polynomials are binary numbers (bit i = the
   coefficient of x^i); a vector space is a type with an exclusive-or. *)
From Verif Require Import Word.
From Coq Require Import ZifyBool ZifyNat ZifyN.
Open Scope N_scope.

Section Linear.
  Context {S : Type} (add : S -> S -> S) (zero : S) (T : S -> S) (D : S -> Prop).
  Hypothesis add_comm : forall a b, add a b = add b a.
  Hypothesis add_assoc : forall a b c, add a (add b c) = add (add a b) c.
  Hypothesis add_0_r : forall a, add a zero = a.
  Hypothesis add_self : forall a, add a a = zero.
  Hypothesis T_add : forall a b, D a -> D b -> T (add a b) = add (T a) (T b).
  Hypothesis D_0 : D zero.
  Hypothesis D_add : forall a b, D a -> D b -> D (add a b).
  Hypothesis D_T : forall a, D a -> D (T a).

  (* sum over the set bits i of p of T^i s *)
  Fixpoint evp (p : positive) (s : S) : S :=
    match p with
    | xH => s
    | xO p => evp p (T s)
    | xI p => add s (evp p (T s))
    end.
  Definition ev (p : N) (s : S) : S := match p with 0 => zero | Npos p => evp p s end.

  Lemma add_0_l a : add zero a = a.
  Proof. now rewrite add_comm, add_0_r. Qed.
  Lemma add_swap a b c d : add (add a b) (add c d) = add (add a c) (add b d).
  Proof.
    rewrite <- !add_assoc. f_equal. rewrite !add_assoc. f_equal. apply add_comm.
  Qed.
  Lemma T_0 : T zero = zero.
  Proof. rewrite <- (add_self zero) at 1. rewrite T_add by exact D_0. apply add_self. Qed.

  Lemma evp_D p : forall s, D s -> D (evp p s).
  Proof. induction p as [p IH|p IH|]; intros s Hs; cbn [evp]; auto. Qed.
  Lemma ev_D p s : D s -> D (ev p s).
  Proof. destruct p as [|p]; [intros; apply D_0|apply evp_D]. Qed.
  Lemma evp_add p : forall a b, D a -> D b -> evp p (add a b) = add (evp p a) (evp p b).
  Proof.
    induction p as [p IH|p IH|]; intros a b Ha Hb; cbn [evp].
    - rewrite T_add, IH by auto. apply add_swap.
    - now rewrite T_add, IH by auto.
    - reflexivity.
  Qed.
  Lemma ev_add p a b : D a -> D b -> ev p (add a b) = add (ev p a) (ev p b).
  Proof. destruct p; cbn; [now rewrite add_0_r|apply evp_add]. Qed.
  Lemma evp_T p : forall s, D s -> evp p (T s) = T (evp p s).
  Proof.
    induction p as [p IH|p IH|]; intros s Hs; cbn [evp].
    - rewrite T_add by (auto using evp_D). now rewrite IH by auto.
    - apply IH. auto.
    - reflexivity.
  Qed.
  Lemma ev_T p s : D s -> ev p (T s) = T (ev p s).
  Proof. destruct p; cbn; [now rewrite T_0|apply evp_T]. Qed.
  Lemma ev_0_r p : ev p zero = zero.
  Proof. rewrite <- (add_self zero) at 1. rewrite ev_add by exact D_0. apply add_self. Qed.
  Lemma ev_double p s : ev (N.double p) s = ev p (T s).
  Proof. destruct p; reflexivity. Qed.
  Lemma ev_pos_lxor p : forall q s, ev (Pos.lxor p q) s = add (evp p s) (evp q s).
  Proof.
    assert (Dbl : forall n s, ev (Pos.Ndouble n) s = ev n (T s)) by (intros [|]; reflexivity).
    assert (Sdbl : forall n s, ev (Pos.Nsucc_double n) s = add s (ev n (T s))).
    { intros [|] s; cbn; [now rewrite add_0_r|reflexivity]. }
    induction p as [p IH|p IH|]; intros [q|q|] s; cbn [Pos.lxor evp].
    - rewrite Dbl, IH. rewrite add_swap, add_self. now rewrite add_0_l.
    - rewrite Sdbl, IH. now rewrite add_assoc.
    - cbn [ev evp]. rewrite add_comm, add_assoc, add_self. now rewrite add_0_l.
    - rewrite Sdbl, IH. rewrite !add_assoc. f_equal. apply add_comm.
    - now rewrite Dbl, IH.
    - cbn [ev evp]. apply add_comm.
    - cbn [ev evp]. rewrite add_assoc, add_self. now rewrite add_0_l.
    - reflexivity.
    - cbn [ev evp]. now rewrite add_self.
  Qed.
  Lemma ev_lxor p q s : ev (N.lxor p q) s = add (ev p s) (ev q s).
  Proof.
    destruct p as [|p], q as [|q]; cbn [N.lxor ev].
    - now rewrite add_0_r.
    - now rewrite add_0_l.
    - now rewrite add_0_r.
    - apply ev_pos_lxor.
  Qed.

  (* monomials *)
  Lemma ev_pow2 n : forall s, ev (2 ^ n) s = N.iter n T s.
  Proof.
    induction n as [|n IH] using N.peano_ind; intros s; [reflexivity|].
    rewrite N.pow_succ_r', <- N.double_spec, ev_double, IH, N.iter_succ. apply Niter_comm.
  Qed.

  (* ---- arithmetic modulo a polynomial phi of degree d ---- *)
  Section Mod.
    Context (phi d : N).
    Hypothesis phi_0 : forall s, D s -> ev phi s = zero.

    Definition red (p : N) : N := if N.testbit p d then N.lxor p phi else p.
    Definition xtime (p : N) : N := red (N.double p).
    Lemma ev_red p s : D s -> ev (red p) s = ev p s.
    Proof.
      intros Hs. unfold red. destruct (N.testbit p d); [|reflexivity].
      rewrite ev_lxor, phi_0 by exact Hs. apply add_0_r.
    Qed.
    Lemma ev_xtime p s : D s -> ev (xtime p) s = ev p (T s).
    Proof. intros Hs. unfold xtime. now rewrite ev_red, ev_double. Qed.
    Fixpoint mulp (p : positive) (q : N) : N :=
      match p with
      | xH => q
      | xO p => xtime (mulp p q)
      | xI p => N.lxor q (xtime (mulp p q))
      end.
    Definition mulmod (p q : N) : N := match p with 0 => 0 | Npos p => mulp p q end.
    Lemma ev_mulp p q : forall s, D s -> ev (mulp p q) s = evp p (ev q s).
    Proof.
      induction p as [p IH|p IH|]; intros s Hs; cbn [mulp evp].
      - rewrite ev_lxor, ev_xtime, IH, ev_T by auto using ev_D. reflexivity.
      - rewrite ev_xtime, IH, ev_T by auto using ev_D. reflexivity.
      - reflexivity.
    Qed.
    Lemma ev_mulmod p q s : D s -> ev (mulmod p q) s = ev p (ev q s).
    Proof. destruct p; cbn; [reflexivity|apply ev_mulp]. Qed.

    (* x^(2^k) by repeated squaring *)
    Fixpoint sqpow (k : nat) (p : N) : N :=
      match k with O => p | Datatypes.S k => sqpow k (mulmod p p) end.
    Lemma ev_sqpow k : forall p n,
      (forall s, D s -> ev p s = N.iter n T s) ->
      forall s, D s -> ev (sqpow k p) s = N.iter (n * 2 ^ N.of_nat k) T s.
    Proof.
      induction k as [|k IH]; intros p n Hp s Hs; cbn [sqpow].
      - rewrite N.mul_1_r. now apply Hp.
      - rewrite (IH _ (2 * n)).
        + rewrite Nat2N.inj_succ, N.pow_succ_r'. f_equal. ring.
        + intros x Hx. rewrite ev_mulmod by exact Hx. rewrite !Hp by (try apply ev_D; assumption).
          rewrite <- Niter_add. f_equal. ring.
        + exact Hs.
    Qed.
    Lemma ev_xpow k s : D s -> ev (sqpow k 2) s = N.iter (2 ^ N.of_nat k) T s.
    Proof.
      intros Hs. rewrite (ev_sqpow k 2 1) by (auto; reflexivity). now rewrite N.mul_1_l.
    Qed.
    (* general power by square and multiply *)
    Fixpoint ppow (p : N) (e : positive) : N :=
      match e with
      | xH => p
      | xO e => ppow (mulmod p p) e
      | xI e => mulmod p (ppow (mulmod p p) e)
      end.
    Lemma ev_ppow e : forall p n,
      (forall s, D s -> ev p s = N.iter n T s) ->
      forall s, D s -> ev (ppow p e) s = N.iter (n * Npos e) T s.
    Proof.
      induction e as [e IH|e IH|]; intros p n Hp s Hs; cbn [ppow].
      - rewrite ev_mulmod by exact Hs. rewrite Hp by (apply ev_D, Hs).
        rewrite (IH _ (2 * n)).
        + rewrite <- Niter_add. f_equal. lia.
        + intros x Hx. rewrite ev_mulmod by exact Hx. rewrite !Hp by (try apply ev_D; assumption).
          rewrite <- Niter_add. f_equal. ring.
        + exact Hs.
      - rewrite (IH _ (2 * n)).
        + f_equal. lia.
        + intros x Hx. rewrite ev_mulmod by exact Hx. rewrite !Hp by (try apply ev_D; assumption).
          rewrite <- Niter_add. f_equal. ring.
        + exact Hs.
      - rewrite Hp by exact Hs. f_equal. lia.
    Qed.
    Lemma ev_xppow e s : D s -> ev (ppow 2 e) s = N.iter (Npos e) T s.
    Proof.
      intros Hs. rewrite (ev_ppow e 2 1) by (auto; reflexivity). now rewrite N.mul_1_l.
    Qed.
  End Mod.

  (* ---- the C jump loop ----
     for (i = 0; i < n; i++) for (b = 0; b < 64; b++) {
        if (JUMP[i] & UINT64_C(1) << b) acc ^= s;  next(); }                 *)
  Fixpoint jump_bits (k : nat) (word : N) (acc s : S) : S * S :=
    match k with
    | O => (acc, s)
    | Datatypes.S k =>
        let acc := if N.odd word then add acc s else acc in
        jump_bits k (N.div2 word) acc (T s)
    end.
  Fixpoint jump_words (w : nat) (ws : list N) (acc s : S) : S * S :=
    match ws with
    | [] => (acc, s)
    | x :: ws => let '(acc, s) := jump_bits w x acc s in jump_words w ws acc s
    end.
  Definition jump_loop (w : nat) (ws : list N) (s : S) : S := fst (jump_words w ws zero s).

  (* little-endian value of the jump table *)
  Fixpoint words_val (w : nat) (ws : list N) : N :=
    match ws with [] => 0 | x :: ws => x + 2 ^ N.of_nat w * words_val w ws end.

  Lemma ev_lor_shift w x y s : x < 2 ^ w -> ev (x + 2 ^ w * y) s = add (ev x s) (ev y (N.iter w T s)).
  Proof.
    intros Hx.
    assert (E : x + 2 ^ w * y = N.lxor x (N.shiftl y w)).
    { rewrite N.shiftl_mul_pow2, (N.mul_comm y). apply N.add_nocarry_lxor.
      apply N.bits_inj. intros i. rewrite N.land_spec, N.bits_0.
      destruct (N.ltb_spec i w) as [Hi|Hi].
      - rewrite (N.mul_comm (2 ^ w)), <- N.shiftl_mul_pow2. rewrite N.shiftl_spec_low by exact Hi. now rewrite andb_false_r.
      - rewrite (proj1 (wf_testbit w x) Hx) by exact Hi. reflexivity. }
    rewrite E, ev_lxor. f_equal. clear. revert s.
    induction w as [|w IH] using N.peano_ind; intros s.
    - now rewrite N.shiftl_0_r.
    - rewrite N.iter_succ, N.shiftl_succ_r, ev_double, IH. f_equal. apply Niter_comm.
  Qed.
  Lemma jump_bits_ev k : forall word acc s, word < 2 ^ N.of_nat k ->
    jump_bits k word acc s = (add acc (ev word s), N.iter (N.of_nat k) T s).
  Proof.
    induction k as [|k IH]; intros word acc s Hw; cbn [jump_bits].
    - assert (word = 0) by (cbn in Hw; lia). subst. cbn. now rewrite add_0_r.
    - rewrite Nat2N.inj_succ, N.pow_succ_r' in Hw.
      rewrite IH by (rewrite N.div2_div; apply N.div_lt_upper_bound; [discriminate|exact Hw]).
      rewrite Nat2N.inj_succ, N.iter_succ, <- Niter_comm. f_equal.
      rewrite (N.div2_odd word) at 3.
      destruct (N.odd word) eqn:Ho; cbn [N.b2n].
      + rewrite <- add_assoc. f_equal.
        destruct (N.div2 word) as [|p]; [cbn; now rewrite add_0_r|reflexivity].
      + rewrite N.add_0_r, <- N.double_spec, ev_double. reflexivity.
  Qed.
  Lemma jump_words_ev w ws : forall acc s, Forall (fun x => x < 2 ^ N.of_nat w) ws ->
    fst (jump_words w ws acc s) = add acc (ev (words_val w ws) s).
  Proof.
    induction ws as [|x ws IH]; intros acc s Hf; cbn [jump_words words_val].
    - cbn. now rewrite add_0_r.
    - inversion Hf as [|? ? Hx Hf']; subst. rewrite jump_bits_ev by exact Hx.
      rewrite IH by exact Hf'. rewrite ev_lor_shift by exact Hx. now rewrite add_assoc.
  Qed.
  Lemma jump_loop_ev w ws s : Forall (fun x => x < 2 ^ N.of_nat w) ws ->
    jump_loop w ws s = ev (words_val w ws) s.
  Proof. intros H. unfold jump_loop. rewrite jump_words_ev by exact H. apply add_0_l. Qed.

  (* the jump table is x^(2^k) mod phi => the jump is 2^k steps *)
  Lemma jump_correct phi d w ws k s :
    (forall s, D s -> ev phi s = zero) ->
    forallb (fun x => x <? 2 ^ N.of_nat w) ws = true ->
    words_val w ws = sqpow phi d k 2 ->
    D s -> jump_loop w ws s = N.iter (2 ^ N.of_nat k) T s.
  Proof.
    intros Hphi Hf Hv Hs. rewrite jump_loop_ev, Hv.
    - now apply ev_xpow.
    - rewrite forallb_forall in Hf. apply Forall_forall. intros x Hx. now apply N.ltb_lt, Hf.
  Qed.
End Linear.

(* A map from words to a vector space that is additive and vanishes on the
   single-bit words vanishes on all words of that width *)
Lemma additive_zero {S} (add : S -> S -> S) (zero : S) (f : N -> S) (w : nat) :
  (forall a, add a zero = a) ->
  f 0 = zero ->
  (forall a b, wf (N.of_nat w) a -> wf (N.of_nat w) b -> f (N.lxor a b) = add (f a) (f b)) ->
  (forall i, (i < w)%nat -> f (2 ^ N.of_nat i) = zero) ->
  forall x, wf (N.of_nat w) x -> f x = zero.
Proof.
  intros A0 F0 Fadd. induction w as [|w IH]; intros Hb x Hx.
  - assert (x = 0) by (unfold wf in Hx; cbn in Hx; lia). now subst.
  - assert (IH' : forall x, wf (N.of_nat w) x -> f x = zero).
    { apply IH.
      - intros a b Ha Hc. apply Fadd; (eapply wf_mono; [|eassumption]; lia).
      - intros; apply Hb; lia. }
    destruct (N.testbit x (N.of_nat w)) eqn:E.
    + assert (W : wf (N.of_nat w) (N.lxor x (2 ^ N.of_nat w))).
      { apply wf_testbit. intros i Hi. rewrite N.lxor_spec.
        destruct (N.eq_dec i (N.of_nat w)) as [->|Hn].
        * rewrite E, N.pow2_bits_true. reflexivity.
        * rewrite N.pow2_bits_false by lia. rewrite xorb_false_r.
          apply (proj1 (wf_testbit (N.of_nat (Datatypes.S w)) x)); [exact Hx|lia]. }
      replace x with (N.lxor (N.lxor x (2 ^ N.of_nat w)) (2 ^ N.of_nat w)) by apply lxor_cancel.
      rewrite Fadd.
      * rewrite (Hb w) by lia. rewrite A0. now apply IH'.
      * eapply wf_mono; [|exact W]. lia.
      * unfold wf. apply N.pow_lt_mono_r; lia.
    + apply IH'. apply wf_testbit. intros i Hi.
      destruct (N.eq_dec i (N.of_nat w)) as [->|Hn]; [exact E|].
      apply (proj1 (wf_testbit (N.of_nat (Datatypes.S w)) x)); [exact Hx|lia].
Qed.
Definition basis_ok {S} (eqb : S -> bool) (f : N -> S) (w : nat) : bool :=
  forallb (fun i => eqb (f (2 ^ N.of_nat i))) (seq 0 w).
Lemma basis_ok_spec {S} (eqb : S -> bool) zero f w :
  (forall s, eqb s = true -> s = zero) ->
  basis_ok eqb f w = true -> forall i, (i < w)%nat -> f (2 ^ N.of_nat i) = zero.
Proof.
  intros He Hb i Hi. unfold basis_ok in Hb. rewrite forallb_forall in Hb.
  apply He, Hb, in_seq. lia.
Qed.

(* The hypotheses of Linear, bundled *)
Record linear {S} (add : S -> S -> S) (zero : S) (T : S -> S) (D : S -> Prop) : Prop := Lin {
  l_comm : forall a b, add a b = add b a;
  l_assoc : forall a b c, add a (add b c) = add (add a b) c;
  l_0_r : forall a, add a zero = a;
  l_self : forall a, add a a = zero;
  l_T : forall a b, D a -> D b -> T (add a b) = add (T a) (T b);
  l_D0 : D zero;
  l_Dadd : forall a b, D a -> D b -> D (add a b);
  l_DT : forall a, D a -> D (T a) }.

Section Bundled.
  Context {S : Type} (add : S -> S -> S) (zero : S) (T : S -> S) (D : S -> Prop) (is0 : S -> bool).
  Hypothesis L : linear add zero T D.
  Notation ev := (ev add zero T).
  Lemma l_ev_add p a b : D a -> D b -> ev p (add a b) = add (ev p a) (ev p b).
  Proof. destruct L. now apply ev_add with (D := D). Qed.
  Lemma l_ev_D p s : D s -> D (ev p s).
  Proof. destruct L. now apply ev_D. Qed.
  Lemma l_ev_T p s : D s -> ev p (T s) = T (ev p s).
  Proof. destruct L. now apply ev_T with (D := D). Qed.
  Lemma l_ev_lxor p q s : ev (N.lxor p q) s = add (ev p s) (ev q s).
  Proof. destruct L. now apply ev_lxor. Qed.
  Lemma l_ev_0 p : ev p zero = zero.
  Proof. destruct L. now apply ev_0_r with (D := D). Qed.
  Lemma l_ev_1 s : ev 1 s = s.
  Proof. reflexivity. Qed.
  Lemma l_T_0 : T zero = zero.
  Proof. destruct L. now apply T_0 with (add := add) (D := D). Qed.
  Lemma l_iter_D n s : D s -> D (N.iter n T s).
  Proof. destruct L. intros H. apply Niter_inv; auto. Qed.
  Lemma l_jump phi d w ws k s :
    (forall s, D s -> ev phi s = zero) ->
    forallb (fun x => x <? 2 ^ N.of_nat w) ws = true ->
    words_val w ws = sqpow phi d k 2 ->
    D s -> jump_loop add zero T w ws s = N.iter (2 ^ N.of_nat k) T s.
  Proof. destruct L. now apply jump_correct. Qed.
  (* vanishing on the single bits of one 64-bit word *)
  Lemma word_annihilated phi (e : N -> S) :
    (forall a, is0 a = true -> a = zero) ->
    e 0 = zero -> (forall a b, e (N.lxor a b) = add (e a) (e b)) ->
    (forall x, wf 64 x -> D (e x)) ->
    basis_ok is0 (fun x => ev phi (e x)) 64 = true ->
    forall x, wf 64 x -> ev phi (e x) = zero.
  Proof.
    intros I0 E0 Ea Ed Hb x Hx.
    apply (additive_zero add zero (fun x => ev phi (e x)) 64).
    - apply L.
    - rewrite E0. apply l_ev_0.
    - intros a b Ha Hc. rewrite Ea. apply l_ev_add; auto.
    - apply (basis_ok_spec is0 zero (fun x => ev phi (e x)) 64); assumption.
    - exact Hx.
  Qed.
  (* an annihilating polynomial with constant term 1 makes T injective *)
  Lemma l_T_inj phi : (forall s, D s -> ev phi s = zero) -> N.odd phi = true ->
    forall a b, D a -> D b -> T a = T b -> a = b.
  Proof.
    intros Hphi Ho.
    assert (K : forall a, D a -> add a (ev (N.div2 phi) (T a)) = zero).
    { intros a Da. transitivity (ev phi a); [|now apply Hphi].
      pose proof (N.div2_odd phi) as P. rewrite Ho in P. cbn [N.b2n] in P.
      transitivity (ev (2 * N.div2 phi + 1) a); [|now rewrite <- P].
      destruct L. destruct (N.div2 phi) as [|q]; [cbn; apply l_0_r0|reflexivity]. }
    intros a b Da Db E.
    pose proof (K a Da) as Ka. pose proof (K b Db) as Kb. rewrite E in Ka.
    set (c := ev (N.div2 phi) (T b)) in *. clearbody c. destruct L.
    assert (R : forall x, add x c = zero -> x = c).
    { intros x Hx. rewrite <- (l_0_r0 x), <- (l_self0 c), l_assoc0, Hx, l_comm0. apply l_0_r0. }
    rewrite (R a Ka), (R b Kb). reflexivity.
  Qed.
  Lemma l_nonzero phi : (forall s, D s -> ev phi s = zero) -> N.odd phi = true ->
    forall n s, D s -> s <> zero -> N.iter n T s <> zero.
  Proof.
    intros Hphi Ho n s Ds Hs. induction n as [|n IH] using N.peano_ind; [exact Hs|].
    rewrite N.iter_succ. intros E. apply IH. apply (l_T_inj phi Hphi Ho).
    - now apply l_iter_D.
    - apply L.
    - rewrite E. symmetry. apply l_T_0.
  Qed.
  Lemma annihilates_sum phi a b : D a -> D b -> ev phi a = zero -> ev phi b = zero -> ev phi (add a b) = zero.
  Proof. intros Da Db Ha Hb. rewrite l_ev_add, Ha, Hb by assumption. apply L. Qed.
End Bundled.

Lemma evp_ext {S} (add : S -> S -> S) (T T' : S -> S) : (forall s, T s = T' s) ->
  forall p s, evp add T p s = evp add T' p s.
Proof. intros E. induction p as [p IH|p IH|]; intros s; cbn [evp]; rewrite <- ?E, ?IH; reflexivity. Qed.
Lemma ev_ext {S} (add : S -> S -> S) zero (T T' : S -> S) : (forall s, T s = T' s) ->
  forall p s, ev add zero T p s = ev add zero T' p s.
Proof. intros E [|p] s; [reflexivity|]. now apply evp_ext. Qed.
Lemma basis_ok_ext {S} (is0 : S -> bool) f g w : (forall x, f x = g x) ->
  basis_ok is0 f w = basis_ok is0 g w.
Proof.
  intros E. unfold basis_ok. induction (seq 0 w) as [|i l IH]; [reflexivity|]. cbn [forallb].
  now rewrite E, IH.
Qed.
(* quick versions of the shifts, for computing *)
Definition fshl (a k : N) : N := N.land (N.shiftl a k) 0xffffffffffffffff.
Definition frotl (a k : N) : N := N.lor (fshl a k) (N.shiftr a (64 - k)).
Lemma fshl_eq a k : wshl 64 a k = fshl a k.
Proof. unfold fshl, wshl, trunc. symmetry. apply (N.land_ones (N.shiftl a k) 64). Qed.
Lemma frotl_eq a k : rotl 64 a k = frotl a k.
Proof. unfold frotl, rotl. now rewrite fshl_eq. Qed.
