(* Lemmas about Bounded.v *)
From Verif Require Import Word Bounded.
From Coq Require Import ZifyBool ZifyNat ZifyN.
Ltac Zify.zify_post_hook ::= idtac.
Open Scope N_scope.

(* Rejection sampling: the first word of the stream that is accepted *)
Fixpoint first_ok {S A} (fuel : nat) (d : S -> S * A) (ok : A -> bool) (s : S) : option (S * A) :=
  let '(s1, x) := d s in
  if ok x then Some (s1, x) else match fuel with O => None | Datatypes.S n => first_ok n d ok s1 end.

(* Every one of the n values comes from the same number q of w-bit words *)
Definition equal_classes (w : N) (ok : N -> bool) (val : N -> N) (n q : N) : Prop :=
  0 < q /\ (forall x, x < 2 ^ w -> ok x = true -> val x < n) /\ forall k, k < n -> exists f : N -> N,
    (forall j, j < q -> f j < 2 ^ w) /\ (forall i j, i < q -> j < q -> f i = f j -> i = j) /\
    forall x, x < 2 ^ w -> (ok x = true /\ val x = k <-> exists j, j < q /\ x = f j).
Definition in_range {S} (w : N) (d : S -> S * N) : Prop := forall s, snd (d s) < 2 ^ w.

Lemma redraw_first {S A B} (fuel : nat) (d : S -> S * A) (g : A -> B) (bad : B -> bool) (ok : A -> bool) :
  (forall s, bad (g (snd (d s))) = negb (ok (snd (d s)))) -> forall s,
  (let dm := fun s => let '(s1, x) := d s in (s1, g x) in let '(s1, m) := dm s in redraw fuel dm bad m s1)
  = option_map (fun r => (fst r, g (snd r))) (first_ok fuel d ok s).
Proof.
  intros H. cbn zeta. induction fuel as [|n IH]; intros s; pose proof (H s) as E; cbn [first_ok]; destruct (d s) as [s1 x]; cbn [snd] in E;
    cbn [redraw]; rewrite E; destruct (ok x); cbn [negb]; try reflexivity.
  exact (IH s1).
Qed.

(* the rejected part and the quotient *)
Section Lemire.
Variables (w R : N).
Hypothesis (R1 : 0 < R) (R2 : R < 2 ^ w).
Definition lok (x : N) : bool := negb ((x * R) mod 2 ^ w <? 2 ^ w mod R).
Definition lval (x : N) : N := x * R / 2 ^ w.
Lemma lemire_classes : equal_classes w lok lval R (2 ^ w / R).
Proof.
  unfold equal_classes, lok, lval. set (W := 2 ^ w) in *. set (q := W / R). set (t := W mod R).
  assert (E : W = R * q + t) by (apply N.div_mod; lia). assert (T : t < R) by (apply N.mod_lt; lia).
  assert (Q : 0 < q) by (destruct (N.eq_dec q 0); [nia|lia]).
  split; [exact Q|]. split; [intros x X _; apply N.div_lt_upper_bound; nia|]. intros k K. set (c := (k * W + t + (R - 1)) / R).
  assert (C1 : forall x, k * W + t <= x * R <-> c <= x).
  { intros x. unfold c. pose proof (N.div_mod (k * W + t + (R - 1)) R ltac:(lia)) as D. pose proof (N.mod_lt (k * W + t + (R - 1)) R ltac:(lia)) as M.
    set (z := (k * W + t + (R - 1)) / R) in *. set (y := (k * W + t + (R - 1)) mod R) in *. split; intros H; nia. }
  assert (C2 : forall x, x * R < (k + 1) * W <-> x < c + q).
  { intros x. destruct (N.lt_ge_cases x q) as [X|X].
    - split; [lia|]. intros _. nia.
    - pose proof (C1 (x - q)) as C. replace ((x - q) * R) with (x * R - q * R) in C by (rewrite N.mul_sub_distr_r; reflexivity).
      assert (q * R <= x * R) by (apply N.mul_le_mono_r; exact X).
      replace ((k + 1) * W) with (k * W + R * q + t) by lia. clearbody c q t. lia. }
  exists (fun j => c + j). split; [|split].
  - intros j J. assert (X : (c + j) * R < (k + 1) * W) by (apply C2; lia). nia.
  - intros i j _ _ H. lia.
  - intros x Hx. assert (W0 : W <> 0) by lia. pose proof (N.div_mod (x * R) W W0) as D. pose proof (N.mod_lt (x * R) W W0) as M.
    set (v := x * R / W) in *. set (l := (x * R) mod W) in *. split.
    + intros [A V]. exists (x - c). pose proof (proj1 (C1 x)). pose proof (proj1 (C2 x)). split; [|enough (c <= x) by lia]; clearbody c; subst v; rewrite V in *; nia.
    + intros (j & J & ->). assert (A : k * W + t <= (c + j) * R) by (apply C1; lia). assert (B : (c + j) * R < (k + 1) * W) by (apply C2; lia).
      assert (V : v = k) by (clearbody c; nia). split; [|exact V]. rewrite V in D. clearbody l t. nia.
Qed.
Lemma lemire_rejected : 2 ^ w - R * (2 ^ w / R) = 2 ^ w mod R /\ 2 * (2 ^ w mod R) < 2 ^ w.
Proof.
  pose proof (N.div_mod (2 ^ w) R ltac:(lia)) as E. pose proof (N.mod_lt (2 ^ w) R ltac:(lia)) as T.
  assert (0 < 2 ^ w / R) by (apply N.div_str_pos; lia). split; nia.
Qed.
Lemma threshold_small : wneg w R mod R = 2 ^ w mod R.
Proof.
  unfold wneg, wsub. rewrite (N.mod_small R) by exact R2. rewrite N.add_0_l, (N.mod_small (2 ^ w - R)) by lia.
  replace (2 ^ w mod R) with ((2 ^ w - R + 1 * R) mod R) by (f_equal; lia). now rewrite N.mod_add by lia.
Qed.
Lemma precheck (m : N) : (m <? R) = false -> (m <? 2 ^ w mod R) = false.
Proof. pose proof (N.mod_lt (2 ^ w) R ltac:(lia)). lia. Qed.
End Lemire.
Lemma mul_fits w x R : x < 2 ^ w -> R <= 2 ^ w -> wmul (2 * w) x R = x * R.
Proof. intros X H. unfold wmul. apply N.mod_small. replace (2 * w) with (w + w) by lia. rewrite N.pow_add_r. nia. Qed.

Lemma lemire_spec {S} w fuel (d : S -> S * N) rng s : in_range w d -> rng < 2 ^ w - 1 ->
  lemire w fuel d rng s = option_map (fun r => (fst r, lval w (rng + 1) (snd r))) (first_ok fuel d (lok w (rng + 1)) s).
Proof.
  intros D H. unfold lemire. assert (E : wadd w rng 1 = rng + 1) by (unfold wadd; apply N.mod_small; lia). rewrite E. cbn zeta.
  set (R := rng + 1) in *. assert (R1 : 0 < R) by (unfold R; lia). assert (R2 : R < 2 ^ w) by (unfold R; lia). rewrite threshold_small by assumption.
  set (bad := fun m => trunc w m <? 2 ^ w mod R).
  assert (B : forall s, bad (wmul (2 * w) (snd (d s)) R) = negb (lok w R (snd (d s)))).
  { intros u. unfold bad, lok, trunc. rewrite mul_fits; [|apply D|lia]. now rewrite Bool.negb_involutive. }
  pose proof (redraw_first fuel d (fun x => wmul (2 * w) x R) bad (lok w R) B s) as F. cbn zeta in F.
  pose proof (D s) as Ds. destruct (d s) as [s1 x] eqn:Es. cbn [snd] in Ds. cbv beta in F. rewrite Es in F. cbv iota in F.
  transitivity (option_map (fun r : S * N => (fst r, wshr (snd r) w)) (redraw fuel (fun s => let '(s1, x) := d s in (s1, wmul (2 * w) x R)) bad (wmul (2 * w) x R) s1)).
  { destruct (trunc w (wmul (2 * w) x R) <? R) eqn:P; [reflexivity|]. apply (precheck w) in P; [|assumption..].
    f_equal. destruct fuel; cbn [redraw]; unfold bad; now rewrite P. }
  rewrite F. clear F.
  assert (G : forall n u r, first_ok n d (lok w R) u = Some r -> snd r < 2 ^ w).
  { clear - D. induction n as [|n IH]; intros u r; cbn [first_ok]; pose proof (D u) as Du; destruct (d u) as [u1 y]; cbn [snd] in Du; destruct (lok w R y); intros H; try discriminate; [now injection H as <-|now injection H as <-|now apply (IH u1)]. }
  destruct (first_ok fuel d (lok w R) s) as [[s2 y]|] eqn:Ef; [|reflexivity]. cbn [option_map fst snd].
  pose proof (G _ _ _ Ef) as Y. cbn [snd] in Y. unfold lval, wshr. rewrite mul_fits by lia. now rewrite N.shiftr_div_pow2.
Qed.

(* the upper half of the product *)
Lemma umulh_correct x r : x < 2 ^ 64 -> r < 2 ^ 64 -> umulh x r = x * r / 2 ^ 64.
Proof.
  intros X H. unfold umulh. cbn zeta. unfold wshr. change 0xFFFFFFFF with (N.ones 32). rewrite !N.land_ones, !N.shiftr_div_pow2.
  set (B := 2 ^ 32). assert (EB : 2 ^ 64 = B * B) by reflexivity. assert (B0 : B <> 0) by discriminate.
  unfold wadd, wmul. rewrite EB in *. clearbody B.
  pose proof (N.div_mod x B B0) as Dx. pose proof (N.div_mod r B B0) as Dr. pose proof (N.mod_lt x B B0) as x0. pose proof (N.mod_lt r B B0) as r0.
  assert (x1 : x / B < B) by (apply N.div_lt_upper_bound; assumption). assert (r1 : r / B < B) by (apply N.div_lt_upper_bound; assumption).
  set (a := x / B) in *. set (b := x mod B) in *. set (c := r / B) in *. set (e := r mod B) in *. clearbody a b c e.
  rewrite (N.mod_small (b * e)) by nia. rewrite (N.mod_small (a * e)) by nia. rewrite (N.mod_small (b * c)) by nia. rewrite (N.mod_small (a * c)) by nia.
  pose proof (N.div_mod (b * e) B B0) as D1. pose proof (N.mod_lt (b * e) B B0) as M1. assert (Q1 : b * e / B < B) by (apply N.div_lt_upper_bound; nia).
  set (w0 := b * e / B) in *. set (l0 := (b * e) mod B) in *. clearbody w0 l0.
  assert (T : a * e + w0 < B * B) by nia. rewrite (N.mod_small (a * e + w0)) by exact T.
  pose proof (N.div_mod (a * e + w0) B B0) as D2. pose proof (N.mod_lt (a * e + w0) B B0) as M2. assert (Q2 : (a * e + w0) / B < B) by (apply N.div_lt_upper_bound; assumption).
  set (w2 := (a * e + w0) / B) in *. set (w1 := (a * e + w0) mod B) in *. clearbody w1 w2.
  assert (U : w1 + b * c < B * B) by nia. rewrite (N.mod_small (w1 + b * c)) by exact U.
  pose proof (N.div_mod (w1 + b * c) B B0) as D3. pose proof (N.mod_lt (w1 + b * c) B B0) as M3.
  set (h := (w1 + b * c) / B) in *. set (l := (w1 + b * c) mod B) in *. clearbody h l.
  assert (P : x * r = (a * c + w2 + h) * (B * B) + (l * B + l0)).
  { rewrite Dx, Dr. replace ((B * a + b) * (B * c + e)) with (a * c * (B * B) + (a * e) * B + (b * c) * B + b * e) by lia. rewrite D1.
    replace (a * c * (B * B) + a * e * B + b * c * B + (B * w0 + l0)) with (a * c * (B * B) + (a * e + w0) * B + b * c * B + l0) by lia. rewrite D2.
    replace (a * c * (B * B) + (B * w2 + w1) * B + b * c * B + l0) with (a * c * (B * B) + w2 * (B * B) + (w1 + b * c) * B + l0) by lia. rewrite D3. lia. }
  assert (L : l * B + l0 < B * B) by nia.
  assert (G : a * c + w2 + h < B * B) by (apply (N.mul_lt_mono_pos_r (B * B)); [nia|]; assert (x * r < B * B * (B * B)) by nia; lia).
  rewrite (N.mod_small (a * c + w2)) by lia. rewrite N.mod_small by exact G.
  apply (N.div_unique _ _ _ (l * B + l0)); [exact L|]. rewrite P. lia.
Qed.
Lemma lemire64_spec {S} i128 fuel (d : S -> S * N) rng s : in_range 64 d -> rng < 2 ^ 64 - 1 ->
  lemire64 i128 fuel d rng s = option_map (fun r => (fst r, lval 64 (rng + 1) (snd r))) (first_ok fuel d (lok 64 (rng + 1)) s).
Proof.
  intros D H. rewrite <- lemire_spec by assumption. unfold lemire64, lemire.
  assert (E : wadd 64 rng 1 = rng + 1) by (unfold wadd; apply N.mod_small; lia). rewrite E. cbn zeta.
  set (R := rng + 1) in *. assert (R1 : 0 < R) by (unfold R; lia). assert (R2 : R < 2 ^ 64) by (unfold R; lia).
  assert (T : wsub 64 0xFFFFFFFFFFFFFFFF rng = wneg 64 R).
  { unfold wneg, wsub. rewrite (N.mod_small rng), (N.mod_small R) by lia. rewrite N.add_0_l.
    replace (0xFFFFFFFFFFFFFFFF + (2 ^ 64 - rng)) with (2 ^ 64 - R + 1 * 2 ^ 64) by (unfold R; lia). now rewrite N.mod_add by discriminate. }
  rewrite T. destruct i128.
  - change (2 * 64) with 128. change 0xFFFFFFFFFFFFFFFF with (N.ones 64).
    assert (G : forall m, N.land m (N.ones 64) = trunc 64 m) by (intros; apply N.land_ones).
    destruct (d s) as [s1 x]. rewrite G. destruct (trunc 64 (wmul 128 x R) <? R); [|reflexivity]. f_equal.
    generalize (wmul 128 x R) as m. revert s1. induction fuel as [|n IH]; intros s1 m; cbn [redraw]; rewrite G; destruct (trunc 64 m <? _); try reflexivity.
    destruct (d s1) as [s2 y]. apply IH.
  - pose proof (D s) as Ds. destruct (d s) as [s1 x]. cbn [snd] in Ds. change (2 * 64) with 128.
    assert (F : forall x, x < 2 ^ 64 -> wmul 128 x R = x * R) by (intros; apply (mul_fits 64); lia).
    assert (G : forall x, x < 2 ^ 64 -> wmul 64 x R = trunc 64 (wmul 128 x R)) by (intros; now rewrite F).
    assert (V : forall x, x < 2 ^ 64 -> umulh x R = wshr (wmul 128 x R) 64) by (intros; rewrite F by assumption; unfold wshr; now rewrite N.shiftr_div_pow2, umulh_correct).
    rewrite <- G by exact Ds. destruct (wmul 64 x R <? R); [|cbn [option_map fst snd]; now rewrite V].
    set (t := wneg 64 R mod R). clearbody t. revert s1 x Ds. induction fuel as [|n IH]; intros s1 x Ds; cbn [redraw]; rewrite <- G by exact Ds;
      destruct (wmul 64 x R <? t); cbn [option_map fst snd]; try reflexivity; try now rewrite V.
    pose proof (D s1) as D1. destruct (d s1) as [s2 y]. now apply IH.
Qed.

(* masks *)
Lemma smear_spec n m x i : (forall i, N.testbit x i = true <-> exists j, j < n /\ N.testbit m (i + j) = true) ->
  N.testbit (N.lor x (wshr x n)) i = true <-> exists j, j < 2 * n /\ N.testbit m (i + j) = true.
Proof.
  intros H. unfold wshr. rewrite N.lor_spec, Bool.orb_true_iff, N.shiftr_spec by lia. rewrite !H. split.
  - intros [(j & J & T)|(j & J & T)]; [exists j; split; [lia|exact T]|]. exists (n + j). split; [lia|]. now rewrite N.add_assoc.
  - intros (j & J & T). destruct (N.lt_ge_cases j n) as [L|L]; [left; now exists j|right]. exists (j - n). split; [lia|]. replace (i + n + (j - n)) with (i + j) by lia. exact T.
Qed.
Lemma gen_mask_spec m : m < 2 ^ 64 -> gen_mask m = N.ones (N.size m).
Proof.
  intros H. apply N.bits_inj. intros i.
  assert (G : N.testbit (gen_mask m) i = true <-> exists j, j < 64 /\ N.testbit m (i + j) = true).
  { unfold gen_mask. cbn zeta. apply (smear_spec 32). intros i1. apply (smear_spec 16). intros i2. apply (smear_spec 8). intros i3.
    apply (smear_spec 4). intros i4. apply (smear_spec 2). intros i5. apply (smear_spec 1). intros i6. split.
    - intros T. exists 0. rewrite N.add_0_r. split; [lia|exact T].
    - intros (j & J & T). replace j with 0 in T by lia. now rewrite N.add_0_r in T. }
  destruct (N.eq_dec m 0) as [->|Z]; [vm_compute; now destruct i|].
  assert (S : N.size m = N.succ (N.log2 m)) by now apply N.size_log2. assert (L : N.log2 m < 64) by (apply N.log2_lt_pow2; lia).
  destruct (N.lt_ge_cases i (N.size m)) as [C|C].
  - rewrite N.ones_spec_low by exact C. apply G. exists (N.log2 m - i). split; [lia|]. replace (i + (N.log2 m - i)) with (N.log2 m) by lia. now apply N.bit_log2.
  - rewrite N.ones_spec_high by exact C. apply Bool.not_true_iff_false. intros T. apply G in T as (j & _ & T). rewrite N.bits_above_log2 in T by lia. discriminate.
Qed.
Lemma size_bounds m : 0 < m -> m <= N.ones (N.size m) /\ N.ones (N.size m) < 2 * m.
Proof.
  intros H. pose proof (N.log2_spec m H) as [L1 L2]. rewrite N.size_log2 by lia. rewrite N.ones_equiv. rewrite N.pow_succ_r' in *. lia.
Qed.
Lemma size_le w m : m < 2 ^ w -> N.size m <= w.
Proof. intros H. destruct (N.eq_dec m 0) as [->|Z]; [cbn; lia|]. rewrite N.size_log2 by exact Z. apply N.le_succ_l, N.log2_lt_pow2; lia. Qed.

Definition mok (b rng x : N) : bool := x mod 2 ^ b <=? rng.
Definition mval (b x : N) : N := x mod 2 ^ b.
Lemma mask_classes w b rng : b <= w -> rng < 2 ^ b -> equal_classes w (mok b rng) (mval b) (rng + 1) (2 ^ (w - b)).
Proof.
  intros B H. pose proof (pow2_pos b) as P. assert (E : 2 ^ w = 2 ^ b * 2 ^ (w - b)) by (rewrite <- N.pow_add_r; f_equal; lia).
  split; [apply pow2_pos|]. split; [unfold mok, mval; intros x X A; lia|]. intros k K. exists (fun j => k + j * 2 ^ b). unfold mok, mval. rewrite E. set (q := 2 ^ (w - b)) in *. set (m := 2 ^ b) in *. clearbody q m. split; [|split].
  - intros j J. nia.
  - intros i j _ _ I. nia.
  - intros x X. split.
    + intros [_ V]. exists (x / m). split; [apply N.div_lt_upper_bound; lia|]. pose proof (N.div_mod x m ltac:(lia)). lia.
    + intros (j & J & ->). rewrite N.mod_add, N.mod_small by lia. lia.
Qed.
Lemma masked_spec {S} fuel (d : S -> S * N) b rng s :
  masked fuel d rng (N.ones b) s = option_map (fun r => (fst r, mval b (snd r))) (first_ok fuel d (mok b rng) s).
Proof.
  unfold masked. rewrite <- (redraw_first fuel d (fun x => mval b x) (fun val => rng <? val)) by (intros; unfold mok, mval; lia). cbn zeta.
  unfold mval. assert (L : forall x, N.land x (N.ones b) = x mod 2 ^ b) by (intros; apply N.land_ones).
  destruct (d s) as [s1 x]. rewrite L. generalize (x mod 2 ^ b) as v. revert s1.
  induction fuel as [|n IH]; intros s1 v; cbn [redraw]; destruct (rng <? v); try reflexivity. destruct (d s1) as [s2 y]. rewrite L. apply IH.
Qed.
Lemma direct_classes w : equal_classes w (fun _ => true) (fun x => x) (2 ^ w) 1.
Proof.
  split; [lia|]. split; [auto|]. intros k K. exists (fun _ => k). split; [|split]; [intros; exact K|intros; lia|]. intros x X. split; [intros [_ ->]; exists 0; split; [lia|reflexivity]|intros (j & _ & ->); auto].
Qed.
Lemma first_any {S A} fuel (d : S -> S * A) s : first_ok fuel d (fun _ => true) s = Some (d s).
Proof. destruct fuel; cbn [first_ok]; now destruct (d s). Qed.

Lemma trunc_ones w b : b <= w -> trunc w (N.ones b) = N.ones b.
Proof.
  intros H. apply trunc_small. unfold wf. rewrite N.ones_equiv. pose proof (N.pow_le_mono_r 2 b w ltac:(lia) H). pose proof (pow2_pos b). lia.
Qed.

(* the state after n draws, and the n-th word *)
Fixpoint after {S A} (d : S -> S * A) (n : nat) (s : S) : S := match n with O => s | Datatypes.S n => after d n (fst (d s)) end.
Definition nth_word {S A} (d : S -> S * A) (n : nat) (s : S) : A := snd (d (after d n s)).
Lemma first_ok_iff {S A} (d : S -> S * A) ok fuel : forall s s' x,
  first_ok fuel d ok s = Some (s', x) <->
  exists n, (n <= fuel)%nat /\ (forall i, (i < n)%nat -> ok (nth_word d i s) = false) /\ ok (nth_word d n s) = true /\ x = nth_word d n s /\ s' = after d (Datatypes.S n) s.
Proof.
  induction fuel as [|f IH]; intros s s' x; cbn [first_ok]; destruct (d s) as [s1 y] eqn:E; assert (Y : nth_word d 0 s = y) by (unfold nth_word; cbn [after]; now rewrite E).
  - destruct (ok y) eqn:O; split.
    + intros H. injection H as <- <-. exists 0%nat. rewrite Y. cbn [after]. rewrite E. repeat split; auto; lia.
    + intros (n & N0 & _ & _ & -> & ->). replace n with 0%nat by lia. cbn [after]. rewrite Y, E. reflexivity.
    + discriminate.
    + intros (n & N0 & _ & O2 & _). replace n with 0%nat in O2 by lia. congruence.
  - destruct (ok y) eqn:O; split.
    + intros H. injection H as <- <-. exists 0%nat. rewrite Y. cbn [after]. rewrite E. repeat split; auto; lia.
    + intros (n & N0 & F & O2 & -> & ->). destruct n as [|n]; [cbn [after]; rewrite Y, E; reflexivity|]. specialize (F 0%nat ltac:(lia)). congruence.
    + intros H. apply IH in H as (n & N0 & F & O2 & -> & ->). exists (Datatypes.S n).
      assert (Sh : forall i, nth_word d (Datatypes.S i) s = nth_word d i s1) by (intros i; unfold nth_word; cbn [after]; now rewrite E).
      rewrite !Sh. split; [lia|]. split; [|split; [exact O2|split; [reflexivity|cbn [after]; now rewrite E]]].
      intros [|i] I; [congruence|]. rewrite Sh. apply F. lia.
    + intros ([|n] & N0 & F & O2 & -> & ->); [congruence|]. apply IH. exists n.
      assert (Sh : forall i, nth_word d (Datatypes.S i) s = nth_word d i s1) by (intros i; unfold nth_word; cbn [after]; now rewrite E).
      rewrite Sh in *. split; [lia|]. split; [|split; [exact O2|split; [reflexivity|cbn [after]; now rewrite E]]].
      intros i I. rewrite <- Sh. apply F. lia.
Qed.
Lemma after_S {S A} (d : S -> S * A) n : forall s, after d (Datatypes.S n) s = fst (d (after d n s)).
Proof. induction n as [|n IH]; intros s; [reflexivity|]. change (after d (Datatypes.S (Datatypes.S n)) s) with (after d (Datatypes.S n) (fst (d s))). now rewrite IH. Qed.

(* the buffered sources read the digits of the 32-bit words, lowest first *)
Lemma buffered_run {St} bits per (next32 : St -> St * N) s : 0 < bits -> 32 / bits = N.of_nat per -> (0 < per)%nat -> forall n,
  let b := after (buffered bits next32) n (fresh s) in
  match (n mod per)%nat with
  | O => b_cnt b = 0 /\ b_st b = after next32 (n / per) s
  | Datatypes.S i => b_cnt b = N.of_nat (per - 1 - i) /\ b_st b = after next32 (Datatypes.S (n / per)) s /\ b_buf b = N.shiftr (nth_word next32 (n / per) s) (bits * N.of_nat i)
  end.
Proof.
  intros B P P0. induction n as [|n IH].
  - cbn zeta. rewrite Nat.mod_0_l, Nat.div_0_l by lia. split; reflexivity.
  - cbn zeta in *. rewrite after_S. set (b := after (buffered bits next32) n (fresh s)) in *. clearbody b.
    pose proof (Nat.div_mod n per ltac:(lia)) as D. pose proof (Nat.mod_upper_bound n per ltac:(lia)) as M.
    set (q := (n / per)%nat) in *. set (r := (n mod per)%nat) in *. clearbody q r.
    assert (St1 : b_cnt (fst (buffered bits next32 b)) = N.of_nat (per - 1 - r) /\ b_st (fst (buffered bits next32 b)) = after next32 (Datatypes.S q) s /\
      b_buf (fst (buffered bits next32 b)) = N.shiftr (nth_word next32 q s) (bits * N.of_nat r)).
    { unfold buffered. destruct r as [|r].
      - destruct IH as [-> ->]. cbn [N.eqb]. rewrite P, after_S. unfold nth_word. destruct (next32 (after next32 q s)) as [s1 x]. cbn [fst snd b_st b_cnt b_buf].
        rewrite N.mul_0_r, N.shiftr_0_r. repeat split; lia.
      - destruct IH as (C & -> & E). rewrite C. replace (N.of_nat (per - 1 - r) =? 0) with false by lia. cbn [fst b_st b_cnt b_buf]. rewrite E. split; [lia|]. split; [reflexivity|].
        unfold wshr. rewrite N.shiftr_shiftr. f_equal. lia. }
    destruct (Nat.eq_dec (Datatypes.S r) per) as [F|F].
    + assert (N1 : Datatypes.S n = (Datatypes.S q * per)%nat) by (rewrite D; lia). rewrite N1, Nat.mod_mul, Nat.div_mul by lia. destruct St1 as (C & E & _). split; [rewrite C; lia|exact E].
    + assert (Q : (Datatypes.S n / per)%nat = q) by (symmetry; apply (Nat.div_unique _ _ _ (Datatypes.S r)); lia).
      assert (R : (Datatypes.S n mod per)%nat = Datatypes.S r) by (symmetry; apply (Nat.mod_unique _ _ q); lia). rewrite Q, R. exact St1.
Qed.
Lemma buffered_word {St} bits per (next32 : St -> St * N) s n : 0 < bits -> 32 / bits = N.of_nat per -> (0 < per)%nat ->
  nth_word (buffered bits next32) n (fresh s) = (nth_word next32 (n / per) s / 2 ^ (bits * N.of_nat (n mod per))) mod 2 ^ bits.
Proof.
  intros B P P0. pose proof (buffered_run bits per next32 s B P P0 n) as H. cbn zeta in H. unfold nth_word at 1.
  set (b := after (buffered bits next32) n (fresh s)) in *. clearbody b. unfold buffered, trunc. rewrite <- N.shiftr_div_pow2.
  pose proof (Nat.mod_upper_bound n per ltac:(lia)) as M.
  destruct (n mod per)%nat as [|r].
  - destruct H as [-> ->]. cbn [N.eqb]. unfold nth_word. destruct (next32 _) as [s1 x]. cbn [snd b_buf]. now rewrite N.mul_0_r, N.shiftr_0_r.
  - destruct H as (C & _ & E). rewrite C. replace (N.of_nat (per - 1 - r) =? 0) with false by lia. cbn [snd b_buf]. rewrite E. unfold wshr. rewrite N.shiftr_shiftr. do 2 f_equal. lia.
Qed.
Lemma buffered_range {St} bits (next32 : St -> St * N) : in_range bits (buffered bits next32).
Proof. intros b. unfold buffered. cbn [snd]. apply wf_trunc. Qed.

(* both methods, at width w *)
Lemma bounded_classes w rng (um : bool) : 0 < rng -> rng < 2 ^ w -> exists ok val q,
  equal_classes w ok val (rng + 1) q /\ 2 ^ w < 2 * (q * (rng + 1)) /\
  forall S (d : S -> S * N) fuel off s, in_range w d -> w <= 64 ->
    random_bounded fuel w d off rng (trunc w (gen_mask rng)) um s = option_map (fun r => (fst r, (off + val (snd r)) mod 2 ^ w)) (first_ok fuel d ok s).
Proof.
  intros H0 H1. destruct (N.eq_dec rng (2 ^ w - 1)) as [E|E].
  - exists (fun _ => true), (fun x => x), 1. replace (rng + 1) with (2 ^ w) by lia. split; [apply direct_classes|]. split; [lia|].
    intros S d fuel off s _ _. unfold random_bounded. replace (rng =? 0) with false by lia. replace (rng =? 2 ^ w - 1) with true by lia. now rewrite first_any.
  - destruct um.
    + pose proof (size_le w rng H1) as L. pose proof (size_bounds rng H0) as [B1 B2]. rewrite N.ones_equiv in B1, B2. pose proof (pow2_pos (N.size rng)) as P.
      exists (mok (N.size rng) rng), (mval (N.size rng)), (2 ^ (w - N.size rng)). split; [apply mask_classes; lia|].
      assert (Ew : 2 ^ w = 2 ^ N.size rng * 2 ^ (w - N.size rng)) by (rewrite <- N.pow_add_r; f_equal; lia). split.
      { rewrite Ew. pose proof (pow2_pos (w - N.size rng)). nia. }
      intros S d fuel off s _ W. unfold random_bounded. replace (rng =? 0) with false by lia. replace (rng =? 2 ^ w - 1) with false by lia.
      assert (rng < 2 ^ 64) by (pose proof (N.pow_le_mono_r 2 w 64 ltac:(lia) W); lia).
      rewrite gen_mask_spec, trunc_ones, masked_spec by assumption. unfold plus. now destruct (first_ok _ _ _ _).
    + exists (lok w (rng + 1)), (lval w (rng + 1)), (2 ^ w / (rng + 1)). split; [apply lemire_classes; lia|]. split.
      { pose proof (lemire_rejected w (rng + 1) ltac:(lia) ltac:(lia)). lia. }
      intros S d fuel off s D _. unfold random_bounded. replace (rng =? 0) with false by lia. replace (rng =? 2 ^ w - 1) with false by lia.
      rewrite lemire_spec by (try assumption; lia). unfold plus. now destruct (first_ok _ _ _ _).
Qed.
Lemma filled_app {S} (f : S -> option (S * N)) n m : forall s,
  filled f (n + m) s = match filled f n s with None => None | Some (s1, l) => match filled f m s1 with None => None | Some (s2, l2) => Some (s2, l ++ l2) end end.
Proof.
  induction n as [|n IH]; intros s; cbn [Nat.add filled]; [destruct (filled f m s) as [[? ?]|]; reflexivity|].
  destruct (f s) as [[s1 x]|]; [|reflexivity]. rewrite IH. destruct (filled f n s1) as [[s2 l]|]; [|reflexivity]. destruct (filled f m s2) as [[? ?]|]; reflexivity.
Qed.
Lemma filled_ext {S} (f g : S -> option (S * N)) n : (forall s, f s = g s) -> forall s, filled f n s = filled g n s.
Proof. intros H. induction n as [|n IH]; intros s; cbn [filled]; [reflexivity|]. rewrite H. destruct (g s) as [[s1 x]|]; [|reflexivity]. now rewrite IH. Qed.
