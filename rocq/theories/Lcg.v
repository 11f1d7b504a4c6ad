(* Linear congruential engines modulo 2^w and the O(log n) advance loop. *)
From Verif Require Import Word.
From Coq Require Import ZArith Znumtheory ZifyBool ZifyNat ZifyN.
Open Scope N_scope.

(* One step of every congruential engine of the package:
   src/pcg32/pcg32.h:22-24 pcg_setseq_64_step_r (w=64);
   src/pcg64/pcg64-v2.h:22-60 pcg64_step_r, pcg64_cm_step_r (w=128); src/pcg64/lcg128mix.h:15-32 lcg128mix_step (w=128);
   src/lxm/lxm.h lcg component (w=64). *)
Definition lcg_step (w a c s : N) : N := (s * a + c) mod 2 ^ w.

(* src/pcg32/pcg32.c:7-22 pcg_advance_lcg_64 and
   src/pcg64/pcg64-common.c:5-18 pcg_advance_lcg_128 (native __uint128_t):
     acc_mult = 1; acc_plus = 0;
     while (delta > 0) {
       if (delta & 1) { acc_mult *= cur_mult;
                        acc_plus = acc_plus * cur_mult + cur_plus; }
       cur_plus = (cur_mult + 1) * cur_plus;
       cur_mult *= cur_mult;
       delta /= 2; }
     return acc_mult * state + acc_plus;
   The loop is structural on the binary representation of delta. *)
Fixpoint adv_loop (w : N) (delta : positive) (am ap cm cp : N) : N * N :=
  let step1 := (wmul w am cm, wadd w (wmul w ap cm) cp) in
  let cp' := wmul w (wadd w cm 1) cp in
  let cm' := wmul w cm cm in
  match delta with
  | xH => step1
  | xI d => adv_loop w d (fst step1) (snd step1) cm' cp'
  | xO d => adv_loop w d am ap cm' cp'
  end.
Definition lcg_advance (w s delta cur_mult cur_plus : N) : N :=
  let '(am, ap) := match delta with
                   | 0 => (1, 0)
                   | Npos d => adv_loop w d 1 0 cur_mult cur_plus
                   end in
  wadd w (wmul w am s) ap.

Lemma wf_lcg_step w a c s : wf w (lcg_step w a c s).
Proof. apply N.mod_lt, pow2_nz. Qed.

(* The affine map x -> m x + p reduced mod 2^w *)
Definition aff (w m p x : N) : N := (m * x + p) mod 2 ^ w.

Lemma aff_ext w m p m' p' x :
  m mod 2 ^ w = m' mod 2 ^ w -> p mod 2 ^ w = p' mod 2 ^ w -> aff w m p x = aff w m' p' x.
Proof.
  intros Hm Hp. unfold aff.
  rewrite N.add_mod, N.mul_mod, Hm, Hp by apply pow2_nz.
  now rewrite <- N.mul_mod, <- N.add_mod by apply pow2_nz.
Qed.
Lemma aff_comp w m p m' p' x :
  aff w m p (aff w m' p' x) = aff w (m * m') (m * p' + p) x.
Proof.
  unfold aff.
  rewrite N.add_mod by apply pow2_nz. rewrite N.mul_mod_idemp_r by apply pow2_nz.
  rewrite <- N.add_mod by apply pow2_nz. f_equal. ring.
Qed.

Lemma iter_sq {A} (f : A -> A) d x :
  N.iter (Npos d) (fun y => f (f y)) x = N.iter (Npos (xO d)) f x.
Proof.
  change (Npos (xO d)) with (2 * Npos d). rewrite Niter_mul. reflexivity.
Qed.

Lemma aff_sq w m p x :
  aff w m p (aff w m p x) = aff w (wmul w m m) (wmul w (wadd w m 1) p) x.
Proof.
  rewrite aff_comp. apply aff_ext.
  - unfold wmul. now rewrite N.mod_mod by apply pow2_nz.
  - unfold wmul, wadd. rewrite N.mod_mod by apply pow2_nz.
    rewrite N.mul_mod_idemp_l by apply pow2_nz. f_equal. ring.
Qed.

Lemma Niter_ext {A} (f g : A -> A) n x : (forall y, f y = g y) -> N.iter n f x = N.iter n g x.
Proof.
  intros H. induction n as [|n IH] using N.peano_ind; [reflexivity|].
  now rewrite !N.iter_succ, IH, H.
Qed.

Lemma adv_loop_spec w delta : forall am ap cm cp x,
  aff w (fst (adv_loop w delta am ap cm cp)) (snd (adv_loop w delta am ap cm cp)) x =
  N.iter (Npos delta) (aff w cm cp) (aff w am ap x).
Proof.
  assert (one : forall am ap cm cp x,
    aff w (wmul w am cm) (wadd w (wmul w ap cm) cp) x = aff w cm cp (aff w am ap x)).
  { intros am ap cm cp x. rewrite aff_comp. apply aff_ext.
    - unfold wmul. rewrite N.mod_mod by apply pow2_nz. f_equal. ring.
    - unfold wadd, wmul. rewrite N.mod_mod by apply pow2_nz.
      rewrite N.add_mod_idemp_l by apply pow2_nz. f_equal. ring. }
  induction delta as [d IH|d IH|]; intros am ap cm cp x; cbn [adv_loop].
  - cbn [fst snd]. rewrite IH, one.
    change (Npos d~1) with (1 + Npos d~0). rewrite Niter_add, <- iter_sq.
    change (N.iter 1 ?f ?y) with (f y).
    apply Niter_ext. intros y. symmetry. apply aff_sq.
  - rewrite IH, <- iter_sq. apply Niter_ext. intros y. symmetry. apply aff_sq.
  - cbn [fst snd]. apply one.
Qed.

Lemma lcg_step_aff w a c s : lcg_step w a c s = aff w a c s.
Proof. unfold lcg_step, aff. now rewrite N.mul_comm. Qed.

(* advance by delta is delta single steps *)
Theorem lcg_advance_iter w s delta a c : wf w s ->
  lcg_advance w s delta a c = N.iter delta (lcg_step w a c) s.
Proof.
  intros Hs. unfold lcg_advance.
  rewrite (Niter_ext _ _ delta s (lcg_step_aff w a c)).
  assert (Hid : aff w 1 0 s = s).
  { unfold aff. rewrite N.mul_1_l, N.add_0_r. now apply N.mod_small. }
  destruct delta as [|d].
  - unfold wadd, wmul. rewrite N.mul_1_l, N.add_0_r, N.mod_mod by apply pow2_nz.
    now apply N.mod_small.
  - rewrite <- Hid at 1. rewrite <- adv_loop_spec.
    destruct (adv_loop w d 1 0 a c) as [am ap]. cbn [fst snd].
    unfold wadd, wmul, aff. now rewrite N.add_mod_idemp_l by apply pow2_nz.
Qed.

(* ---------------- period ---------------- *)

(* geometric sum 1 + a + ... + a^(n-1) *)
Fixpoint geo (a : N) (n : nat) : N :=
  match n with O => 0 | S n => 1 + a * geo a n end.

Lemma geo_add a m n : geo a (m + n) = geo a m + a ^ N.of_nat m * geo a n.
Proof.
  induction m as [|m IH].
  - cbn [Nat.add geo]. change (N.of_nat 0) with 0. rewrite N.pow_0_r. ring.
  - cbn [Nat.add geo]. rewrite IH, Nat2N.inj_succ, N.pow_succ_r'. ring.
Qed.

Lemma geo_pow a n : (a - 1) * geo a n + 1 = a ^ N.of_nat n \/ a = 0.
Proof.
  destruct (N.eq_dec a 0) as [E|E]; [now right|left].
  induction n as [|n IH].
  - cbn [geo]. rewrite N.mul_0_r. reflexivity.
  - rewrite Nat2N.inj_succ, N.pow_succ_r', <- IH. cbn [geo].
    assert (Ha : a = (a - 1) + 1) by lia.
    set (b := a - 1) in *. clearbody b. rewrite Ha. ring.
Qed.

Lemma pow_mod4 a n : a mod 4 = 1 -> (a ^ n) mod 4 = 1.
Proof.
  intros Ha. induction n as [|n IH] using N.peano_ind; [reflexivity|].
  rewrite N.pow_succ_r', N.mul_mod, Ha, IH by discriminate. reflexivity.
Qed.

Lemma geo_mod2 a n : a mod 4 = 1 -> geo a n mod 2 = N.of_nat n mod 2.
Proof.
  intros Ha. induction n as [|n IH]; [reflexivity|].
  cbn [geo]. rewrite N.add_mod, N.mul_mod by discriminate.
  assert (H2 : a mod 2 = 1) by lia.
  rewrite H2, N.mul_1_l, N.mod_mod by discriminate.
  rewrite IH. lia.
Qed.

(* 2^w divides the geometric sum exactly when it divides n *)
Lemma geo_divide a : a mod 4 = 1 -> forall w n,
  (geo a n) mod 2 ^ N.of_nat w = 0 <-> (N.of_nat n) mod 2 ^ N.of_nat w = 0.
Proof.
  intros Ha. induction w as [|w IH]; intros n.
  - change (2 ^ N.of_nat 0) with 1. now rewrite !N.mod_1_r.
  - rewrite Nat2N.inj_succ, N.pow_succ_r'.
    assert (Hev : forall x, x mod (2 * 2 ^ N.of_nat w) = 0 -> x mod 2 = 0).
    { intros x Hx. pose proof (pow2_pos (N.of_nat w)) as Hp.
      apply N.mod_divide in Hx; [|lia]. destruct Hx as [k ->].
      apply N.mod_divide; [discriminate|]. exists (k * 2 ^ N.of_nat w). ring. }
    destruct (N.eq_dec (N.of_nat n mod 2) 0) as [E|E].
    + (* n even *)
      assert (En : exists m, n = (m + m)%nat).
      { exists (N.to_nat (N.of_nat n / 2)). lia. }
      destruct En as [m ->]. rewrite geo_add.
      assert (Hq : exists q, a ^ N.of_nat m = 4 * q + 1).
      { exists (a ^ N.of_nat m / 4). pose proof (pow_mod4 a (N.of_nat m) Ha).
        rewrite (N.div_mod (a ^ N.of_nat m) 4) at 1 by discriminate. lia. }
      destruct Hq as [q Hq]. rewrite Hq.
      replace (geo a m + (4 * q + 1) * geo a m) with (2 * ((1 + 2 * q) * geo a m)) by ring.
      replace (N.of_nat (m + m)) with (2 * N.of_nat m) by lia.
      rewrite !N.mul_mod_distr_l by (auto using pow2_nz; discriminate).
      assert (Hz : forall x, 2 * x = 0 <-> x = 0) by (intros; lia).
      rewrite !Hz, <- IH.
      rewrite !N.mod_divide by apply pow2_nz.
      split; intros Hd.
      * apply N.gauss in Hd; [exact Hd|].
        apply gcd_odd_pow2. rewrite N.odd_add, N.odd_mul. reflexivity.
      * now apply N.divide_mul_r.
    + split; intros H; exfalso; apply Hev in H.
      * rewrite (geo_mod2 a n Ha) in H. contradiction.
      * contradiction.
Qed.

Lemma lcg_iter_closed w a c s n : wf w s ->
  N.iter (N.of_nat n) (lcg_step w a c) s = (a ^ N.of_nat n * s + c * geo a n) mod 2 ^ w.
Proof.
  intros Hs. induction n as [|n IH].
  - cbn [geo N.iter N.of_nat]. rewrite N.pow_0_r, N.mul_0_r, N.add_0_r, N.mul_1_l.
    symmetry. now apply N.mod_small.
  - rewrite Nat2N.inj_succ, N.iter_succ, IH. unfold lcg_step.
    rewrite N.add_mod by apply pow2_nz.
    rewrite N.mul_mod_idemp_l by apply pow2_nz.
    rewrite <- N.add_mod by apply pow2_nz. f_equal.
    rewrite N.pow_succ_r'. cbn [geo]. ring.
Qed.

(* Hull-Dobell for modulus 2^w: multiplier 1 mod 4, odd increment *)
Theorem lcg_period w a c s n : 
  a mod 4 = 1 -> N.odd c = true -> wf w s ->
  N.iter n (lcg_step w a c) s = s <-> n mod 2 ^ w = 0.
Proof.
  intros Ha Hc Hs.
  rewrite <- (N2Nat.id n). set (k := N.to_nat n). clearbody k.
  rewrite lcg_iter_closed by exact Hs.
  pose proof (geo_divide a Ha (N.to_nat w) k) as Hgd. rewrite N2Nat.id in Hgd.
  rewrite <- Hgd. clear Hgd.
  destruct (geo_pow a k) as [Hg|Hg]; [|subst a; discriminate].
  rewrite <- Hg.
  replace (((a - 1) * geo a k + 1) * s + c * geo a k)
    with (s + ((a - 1) * s + c) * geo a k) by ring.
  assert (Hodd : N.odd ((a - 1) * s + c) = true).
  { rewrite N.odd_add, N.odd_mul, Hc.
    assert (N.odd (a - 1) = false) as ->.
    { rewrite <- N.negb_even. apply negb_false_iff, N.even_spec.
      exists ((a - 1) / 2). lia. }
    reflexivity. }
  set (u := (a - 1) * s + c) in *. set (g := geo a k). 
  split; intros H.
  - assert (Hd : (2 ^ w | u * g)).
    { exists ((s + u * g) / 2 ^ w).
      pose proof (N.div_mod (s + u * g) (2 ^ w) (pow2_nz w)) as Hdm.
      rewrite H in Hdm. lia. }
    apply N.gauss in Hd; [|now apply gcd_odd_pow2].
    now apply N.mod_divide; [apply pow2_nz|].
  - apply N.mod_divide in H; [|apply pow2_nz]. destruct H as [q ->].
    replace (s + u * (q * 2 ^ w)) with (s + (u * q) * 2 ^ w) by ring.
    rewrite N.mod_add by apply pow2_nz. now apply N.mod_small.
Qed.

(* step is injective when the multiplier is odd *)
Lemma lcg_step_inj w a c s t : N.odd a = true -> wf w s -> wf w t ->
  lcg_step w a c s = lcg_step w a c t -> s = t.
Proof.
  intros Ha Hs Ht H.
  assert (E : wadd w (wmul w a s) c = wadd w (wmul w a t) c).
  { unfold wadd, wmul. rewrite !N.add_mod_idemp_l by apply pow2_nz.
    unfold lcg_step in H. now rewrite !(N.mul_comm a). }
  apply wadd_inj_r in E; [|auto with word..].
  now apply odd_mul_inj in E.
Qed.

Lemma Niter_mod {A} (f : A -> A) m s n : m <> 0 ->
  N.iter m f s = s -> N.iter n f s = N.iter (n mod m) f s.
Proof.
  intros Hm Hp. transitivity (N.iter (m * (n / m) + n mod m) f s).
  { f_equal. now apply N.div_mod. }
  rewrite Niter_add. f_equal.
  induction (n / m) as [|q IH] using N.peano_ind.
  - now rewrite N.mul_0_r.
  - rewrite N.mul_succ_r, Niter_add, IH. exact Hp.
Qed.

(* two draws counts reach the same state iff they agree mod 2^w *)
Theorem lcg_states_distinct w a c s i j :
  a mod 4 = 1 -> N.odd c = true -> wf w s ->
  N.iter i (lcg_step w a c) s = N.iter j (lcg_step w a c) s <-> i mod 2 ^ w = j mod 2 ^ w.
Proof.
  intros Ha Hc Hs.
  assert (Hper : N.iter (2 ^ w) (lcg_step w a c) s = s).
  { apply lcg_period; auto. apply N.mod_same, pow2_nz. }
  assert (Hodd : N.odd a = true).
  { rewrite <- N.negb_even. apply negb_true_iff. destruct (N.even a) eqn:E; [|reflexivity].
    apply N.even_spec in E. destruct E as [k ->]. lia. }
  split; intros H.
  - assert (aux : forall i j, i <= j ->
      N.iter i (lcg_step w a c) s = N.iter j (lcg_step w a c) s -> i mod 2 ^ w = j mod 2 ^ w).
    { clear i j H. intros i j Hij H.
      replace j with ((j - i) + i) in H by lia. rewrite Niter_add in H.
      apply (Niter_inj (wf w)) in H.
      - symmetry in H. apply lcg_period in H; auto.
        replace j with (i + (j - i)) by lia.
        rewrite N.add_mod, H, N.add_0_r, N.mod_mod by apply pow2_nz. reflexivity.
      - intros. apply wf_lcg_step.
      - intros x y Hx Hy. now apply lcg_step_inj.
      - exact Hs.
      - apply Niter_inv; [intros; apply wf_lcg_step|exact Hs]. }
    destruct (N.le_ge_cases i j) as [Hl|Hl]; [now apply aux|].
    symmetry. apply aux; [exact Hl|now symmetry].
  - rewrite (Niter_mod _ (2 ^ w) s i), (Niter_mod _ (2 ^ w) s j), H by (auto using pow2_nz).
    reflexivity.
Qed.

(* For any odd multiplier, 2^w steps are the identity (no condition on c) *)
Lemma geo_pow2 a k : N.odd a = true -> geo a (2 ^ k) mod 2 ^ N.of_nat k = 0.
Proof.
  intros Ha. induction k as [|k IH].
  - cbn. apply N.mod_1_r.
  - replace (2 ^ S k)%nat with (2 ^ k + 2 ^ k)%nat by (cbn; lia).
    rewrite geo_add.
    assert (Ho : N.odd (a ^ N.of_nat (2 ^ k)) = true).
    { rewrite N.odd_pow; [exact Ha|]. pose proof (Nat.pow_nonzero 2 k ltac:(discriminate)). lia. }
    set (p := a ^ N.of_nat (2 ^ k)) in *. set (g := geo a (2 ^ k)) in *.
    apply N.odd_spec in Ho as [q Hq].
    apply N.mod_divide in IH; [|apply pow2_nz]. destruct IH as [z Hz].
    rewrite Nat2N.inj_succ, N.pow_succ_r'.
    replace (g + p * g) with ((z * (1 + q)) * (2 * 2 ^ N.of_nat k)) by (rewrite Hz, Hq; ring).
    apply N.mod_mul. pose proof (pow2_nz (N.of_nat k)). lia.
Qed.
Theorem lcg_pow2_id w a c s : N.odd a = true -> wf w s ->
  N.iter (2 ^ w) (lcg_step w a c) s = s.
Proof.
  intros Ha Hs.
  assert (E : 2 ^ w = N.of_nat (2 ^ N.to_nat w)) .
  { rewrite Nat2N.inj_pow, N2Nat.id. reflexivity. }
  transitivity (N.iter (N.of_nat (2 ^ N.to_nat w)) (lcg_step w a c) s); [now rewrite <- E|].
  rewrite lcg_iter_closed by exact Hs.
  destruct (geo_pow a (2 ^ N.to_nat w)) as [Hg|Hg]; [|subst a; discriminate].
  rewrite <- Hg. set (k := (2 ^ N.to_nat w)%nat) in *.
  replace (((a - 1) * geo a k + 1) * s + c * geo a k)
    with (s + ((a - 1) * s + c) * geo a k) by ring.
  pose proof (geo_pow2 a (N.to_nat w) Ha) as Hd. rewrite N2Nat.id in Hd. fold k in Hd.
  rewrite <- N.add_mod_idemp_r, <- N.mul_mod_idemp_r, Hd, N.mul_0_r, N.mod_0_l, N.add_0_r by apply pow2_nz.
  apply N.mod_small, Hs.
Qed.
Lemma lcg_iter_wf w a c s n : wf w s -> wf w (N.iter n (lcg_step w a c) s).
Proof. intros H. apply Niter_inv; [intros; apply wf_lcg_step|exact H]. Qed.
Lemma lcg_iter_mod w a c s n : N.odd a = true -> wf w s ->
  N.iter n (lcg_step w a c) s = N.iter (n mod 2 ^ w) (lcg_step w a c) s.
Proof.
  intros Ha Hs. apply Niter_mod; [apply pow2_nz|now apply lcg_pow2_id].
Qed.
