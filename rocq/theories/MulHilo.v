(* The C99 word-size multiplication of philox.h computes the true high word *)
From Verif Require Import Word Blocks.
From Coq Require Import ZifyBool ZifyNat ZifyN.
Open Scope N_scope.

Lemma divB B q r : r < B -> (q * B + r) / B = q.
Proof. intros H. rewrite N.add_comm, N.div_add by lia. rewrite N.div_small by exact H. lia. Qed.
Lemma modB B q r : r < B -> (q * B + r) mod B = r.
Proof. intros H. rewrite N.add_comm, N.mod_add by lia. now apply N.mod_small. Qed.

(* the arithmetic: digits in base B *)
Lemma mulhi_digits B ah al bh bl : ah < B -> al < B -> bh < B -> bl < B ->
  let s := (ah * bl) mod B + (al * bh) mod B in
  let p := (ah * B + al) * (bh * B + bl) in
  p / (B * B) = ah * bh + (ah * bl) / B + (al * bh) / B + s / B + N.b2n ((p mod (B * B)) / B <? s mod B).
Proof.
  intros Ha Hal Hb Hbl s p.
  assert (B0 : B <> 0) by lia.
  pose proof (N.div_mod (ah * bl) B B0) as D1. pose proof (N.div_mod (al * bh) B B0) as D2.
  pose proof (N.div_mod (al * bl) B B0) as D3. pose proof (N.div_mod s B B0) as D4.
  pose proof (N.mod_lt (al * bl) B B0) as M3. pose proof (N.mod_lt s B B0) as M4.
  assert (Q3 : al * bl / B < B) by (apply N.div_lt_upper_bound; [exact B0|apply N.mul_lt_mono; assumption]).
  set (u := ah * bl / B) in *. set (v := al * bh / B) in *. set (t := al * bl / B) in *. set (r := (al * bl) mod B) in *.
  set (x := s / B) in *. set (y := s mod B) in *.
  assert (Es : s = (ah * bl) mod B + (al * bh) mod B) by reflexivity.
  set (m1 := (ah * bl) mod B) in *. set (m2 := (al * bh) mod B) in *. clearbody u v t r x y m1 m2 s.
  assert (P : p = (ah * bh + u + v + x) * (B * B) + ((y + t) * B + r)).
  { unfold p.
    replace ((ah * B + al) * (bh * B + bl)) with (ah * bh * (B * B) + (ah * bl) * B + (al * bh) * B + al * bl) by (clear; lia).
    rewrite D1, D2, D3.
    replace (ah * bh * (B * B) + (B * u + m1) * B + (B * v + m2) * B + (B * t + r))
      with (ah * bh * (B * B) + (u + v) * (B * B) + (m1 + m2) * B + (B * t + r)) by (clear; lia).
    rewrite <- Es, D4. clear. lia. }
  clearbody p. subst p.
  assert (BB : B * B <> 0) by (clear - B0; nia).
  destruct (N.lt_ge_cases (y + t) B) as [L|L].
  - assert (X : (y + t) * B + r < B * B) by (clear - L M3; nia).
    rewrite divB, modB by exact X. rewrite divB by exact M3.
    replace (y + t <? y) with false by lia. cbn [N.b2n]. lia.
  - set (z := y + t - B).
    assert (Z : (y + t) * B + r = 1 * (B * B) + (z * B + r)) by (unfold z; clear - L; nia).
    assert (Zl : z < B) by (unfold z; clear - M4 Q3; lia).
    assert (X : z * B + r < B * B) by (clear - Zl M3; nia).
    rewrite Z. replace ((ah * bh + u + v + x) * (B * B) + (1 * (B * B) + (z * B + r)))
      with ((ah * bh + u + v + x + 1) * (B * B) + (z * B + r)) by (clear; lia).
    rewrite divB, modB by exact X. rewrite divB by exact M3.
    replace (z <? y) with true by (unfold z; clear - L Q3; lia). cbn [N.b2n]. reflexivity.
Qed.

Theorem c99_mulhi_correct h a b : 0 < h -> wf (2 * h) a -> wf (2 * h) b -> c99_mulhi (2 * h) a b = mulhi (2 * h) a b.
Proof.
  intros Hh Ha Hb. unfold c99_mulhi. cbn zeta. rewrite (N.mul_comm 2 h), N.div_mul by discriminate. rewrite (N.mul_comm h 2).
  set (w := 2 * h) in *.
  assert (Ew : 2 ^ w = 2 ^ h * 2 ^ h) by (unfold w; rewrite <- N.pow_add_r; f_equal; lia).
  assert (B1 : 1 < 2 ^ h) by (apply (N.pow_lt_mono_r 2 0); lia).
  assert (M : wsub w (wshl w 1 h) 1 = N.ones h).
  { unfold wsub, wshl. rewrite N.shiftl_1_l, N.ones_equiv, Ew.
    assert (B2 : 2 ^ h < 2 ^ h * 2 ^ h) by (clear - B1; nia).
    rewrite (N.mod_small (2 ^ h)) by exact B2. rewrite (N.mod_small 1) by (clear - B2 B1; lia).
    replace (2 ^ h + (2 ^ h * 2 ^ h - 1)) with (N.pred (2 ^ h) + 1 * (2 ^ h * 2 ^ h)) by (clear - B1 B2; lia).
    rewrite N.mod_add by (clear - B2; lia). apply N.mod_small. clear - B1 B2. lia. }
  rewrite M. rewrite !N.land_ones, !N.shiftr_div_pow2. unfold mulhi. rewrite N.shiftr_div_pow2.
  unfold wf in Ha, Hb. unfold wadd, wmul. rewrite Ew in *. set (B := 2 ^ h) in *. clearbody B. clear M Hh Ew. clear w.
  assert (B0 : B <> 0) by lia.
  pose proof (N.div_mod a B B0) as Da. pose proof (N.div_mod b B B0) as Db.
  pose proof (N.mod_lt a B B0) as La. pose proof (N.mod_lt b B B0) as Lb.
  assert (Ua : a / B < B) by (apply N.div_lt_upper_bound; assumption).
  assert (Ub : b / B < B) by (apply N.div_lt_upper_bound; assumption).
  pose proof (mulhi_digits B (a / B) (a mod B) (b / B) (b mod B) Ua La Ub Lb) as H. cbn zeta in H.
  assert (Ea : a / B * B + a mod B = a) by (rewrite Da at 3; lia).
  assert (Eb : b / B * B + b mod B = b) by (rewrite Db at 3; lia).
  rewrite Ea, Eb in H. clear Ea Eb.
  assert (T : a * b / (B * B) < B * B) by (apply N.div_lt_upper_bound; [clear - B1; nia|apply N.mul_lt_mono; assumption]).
  set (ah := a / B) in *. set (al := a mod B) in *. set (bh := b / B) in *. set (bl := b mod B) in *. clearbody ah al bh bl.
  assert (P1 : ah * bl < B * B) by (apply N.mul_lt_mono; assumption).
  assert (P2 : al * bh < B * B) by (apply N.mul_lt_mono; assumption).
  assert (P3 : ah * bh < B * B) by (apply N.mul_lt_mono; assumption).
  rewrite (N.mod_small _ _ P1), (N.mod_small _ _ P2), (N.mod_small _ _ P3).
  pose proof (N.mod_lt (ah * bl) B B0) as M1. pose proof (N.mod_lt (al * bh) B B0) as M2.
  assert (S : (ah * bl) mod B + (al * bh) mod B < B * B) by (revert M1 M2; generalize ((ah * bl) mod B) ((al * bh) mod B); clear - B1; intros; nia).
  rewrite (N.mod_small _ _ S). rewrite H in *. clear H.
  set (s := (ah * bl) mod B + (al * bh) mod B) in *. clearbody s.
  set (c := N.b2n _) in *. clearbody c. set (u := ah * bl / B) in *. set (v := al * bh / B) in *. set (x := s / B) in *.
  clearbody u v x. set (k := ah * bh) in *. clearbody k. clear - T B1.
  set (m := B * B) in *. clearbody m.
  rewrite (N.mod_small (k + u)) by lia. rewrite (N.mod_small (k + u + v)) by lia.
  rewrite (N.mod_small (k + u + v + x)) by lia. now apply N.mod_small.
Qed.
