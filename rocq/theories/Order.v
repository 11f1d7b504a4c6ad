(* Exact periods: a cycle length F is minimal if no F/q, q a prime factor of F,
   is a cycle length. Primality of the factors is established by a
   Pocklington-style certificate, checked by computation. *)
From Verif Require Import Word.
From Coq Require Import ZArith Znumtheory Zpow_facts ZifyBool ZifyNat ZifyN List.
Open Scope Z_scope.
Ltac Zify.zify_post_hook ::= idtac.

Lemma prime_divisor_aux n : forall m, 1 < m -> m <= Z.of_nat n -> exists q, prime q /\ (q | m).
Proof.
  induction n as [|n IH]; intros m H1 H2; [lia|].
  destruct (prime_dec m) as [P|P].
  - exists m. split; [exact P|apply Z.divide_refl].
  - destruct (not_prime_divide m H1 P) as (d & Hd & Hdiv).
    destruct (IH d) as (q & Q1 & Q2); [lia..|].
    exists q. split; [exact Q1|]. now apply Z.divide_trans with d.
Qed.
Lemma prime_divisor m : 1 < m -> exists q, prime q /\ (q | m).
Proof. intros H. apply (prime_divisor_aux (Z.to_nat m)); lia. Qed.

Section Order.
  (* P k: "k is a cycle length" *)
  Context (P : Z -> Prop).
  Hypothesis P0 : P 0.
  Hypothesis Padd : forall a b, 0 <= a -> 0 <= b -> P a -> P b -> P (a + b).
  Hypothesis Psub : forall a b, 0 <= a -> 0 <= b -> P a -> P (a + b) -> P b.
  Lemma P_mul k : 0 <= k -> forall a, 0 <= a -> P a -> P (k * a).
  Proof.
    intros Hk a Ha Pa. revert k Hk. apply natlike_ind.
    - exact P0.
    - intros k Hk IH. replace (Z.succ k * a) with (k * a + a) by ring. apply Padd; auto. nia.
  Qed.
  Lemma P_mod a b : 0 <= a -> 0 < b -> P a -> P b -> P (a mod b).
  Proof.
    intros Ha Hb Pa Pb. apply (Psub (a / b * b)).
    - apply Z.mul_nonneg_nonneg; [apply Z.div_pos; lia|lia].
    - apply Z.mod_pos_bound. exact Hb.
    - apply P_mul; [apply Z.div_pos; lia|lia|exact Pb].
    - replace (a / b * b + a mod b) with a; [exact Pa|]. rewrite Z.mul_comm. apply Z.div_mod. lia.
  Qed.
  Lemma P_gcd_aux n : forall a b, 0 <= a -> 0 <= b -> b <= Z.of_nat n -> P a -> P b -> P (Z.gcd a b).
  Proof.
    induction n as [|n IH]; intros a b Ha Hb Hn Pa Pb.
    - assert (b = 0) by lia. subst. rewrite Z.gcd_0_r, Z.abs_eq by exact Ha. exact Pa.
    - destruct (Z.eq_dec b 0) as [->|Hnz].
      + rewrite Z.gcd_0_r, Z.abs_eq by exact Ha. exact Pa.
      + replace (Z.gcd a b) with (Z.gcd b (a mod b)).
        * assert (Hr : 0 <= a mod b < b) by (apply Z.mod_pos_bound; lia).
          apply IH; try lia; [exact Pb|]. apply P_mod; auto. lia.
        * rewrite Z.gcd_comm, Z.gcd_mod by exact Hnz. apply Z.gcd_comm.
  Qed.
  Lemma order_exact F : 0 < F -> P F ->
    (forall q, prime q -> (q | F) -> ~ P (F / q)) ->
    forall k, 0 <= k -> P k -> (F | k).
  Proof.
    intros HF PF Hq k Hk Pk.
    assert (Pg : P (Z.gcd k F)) by (apply (P_gcd_aux (Z.to_nat F)); auto; lia).
    set (g := Z.gcd k F) in *.
    assert (Hg : (g | F)) by apply Z.gcd_divide_r. assert (Hgk : (g | k)) by apply Z.gcd_divide_l.
    assert (Hg0 : 0 <= g) by apply Z.gcd_nonneg.
    destruct Hg as (m & Hm).
    assert (Hgp : 0 < g) by (destruct (Z.eq_dec g 0) as [E|E]; [rewrite E in Hm; lia|lia]).
    assert (Hmp : 0 < m) by nia.
    destruct (Z.eq_dec m 1) as [->|Hm1]; [rewrite Z.mul_1_l in Hm; rewrite Hm; exact Hgk|].
    destruct (prime_divisor m) as (q & Q & (c & Hc)); [lia|].
    exfalso. pose proof (prime_ge_2 q Q).
    apply (Hq q Q).
    - exists (c * g). rewrite Hm, Hc. ring.
    - replace (F / q) with (c * g).
      + apply P_mul; [nia|lia|exact Pg].
      + rewrite Hm, Hc. replace (c * q * g) with (c * g * q) by ring. now rewrite Z.div_mul by lia.
  Qed.
End Order.

(* ---- modular powers ---- *)
Fixpoint powm (m a : Z) (e : positive) : Z :=
  match e with
  | xH => a mod m
  | xO e => powm m (a * a mod m) e
  | xI e => a * powm m (a * a mod m) e mod m
  end.
Lemma powm_spec m e : 0 < m -> forall a, powm m a e = a ^ Zpos e mod m.
Proof.
  intros Hm. induction e as [e IH|e IH|]; intros a; cbn [powm].
  - rewrite IH. rewrite Zpower_mod by lia. rewrite Z.mod_mod by lia. rewrite <- Zpower_mod by lia.
    rewrite Zmult_mod_idemp_r. f_equal.
    replace (Zpos (xI e)) with (1 + 2 * Zpos e) by lia.
    rewrite Z.pow_add_r, Z.pow_mul_r, Z.pow_1_r by lia. now rewrite Z.pow_2_r.
  - rewrite IH. rewrite Zpower_mod by lia. rewrite Z.mod_mod by lia. rewrite <- Zpower_mod by lia.
    f_equal. replace (Zpos (xO e)) with (2 * Zpos e) by lia.
    rewrite Z.pow_mul_r by lia. now rewrite Z.pow_2_r.
  - now rewrite Z.pow_1_r.
Qed.

(* ---- the product of a list of primes ---- *)
Definition prodl (l : list Z) : Z := fold_right Z.mul 1 l.
Lemma prime_in_prod q l : prime q -> Forall prime l -> (q | prodl l) -> In q l.
Proof.
  intros Q Hl. induction Hl as [|p l Hp Hl IH]; cbn [prodl fold_right In]; intros H.
  - apply Z.divide_1_r_nonneg in H; [|pose proof (prime_ge_2 q Q); lia].
    pose proof (prime_ge_2 q Q). lia.
  - apply prime_mult in H; [|exact Q]. destruct H as [H|H]; [|right; now apply IH].
    left. symmetry. now apply prime_div_prime.
Qed.

(* ---- a certificate of primality ----
   a^R has order exactly F modulo every prime factor of n = F*R + 1, hence every
   prime factor of n exceeds F; F*F >= n leaves n itself. *)
Definition cert_ok (n a R : Z) (qs : list Z) : bool :=
  let F := prodl qs in
  (1 <? n) && (F * R =? n - 1) && (n <=? F * F) && (0 <? R) && (0 <? a) &&
  (powm n a (Z.to_pos (n - 1)) =? 1) &&
  forallb (fun q => (1 <? q) && (F / q * q =? F) &&
                    (Z.gcd (powm n a (Z.to_pos (R * (F / q))) - 1) n =? 1)) qs.

Section Powers.
  Context (p b F : Z) (Hp : prime p) (HF : 0 < F) (Hb : ~ (p | b)).
  Hypothesis Ho : forall k, 0 <= k -> b ^ k mod p = 1 -> (F | k).
  Lemma pow_nz i : 0 <= i -> b ^ i mod p <> 0.
  Proof.
    intros Hi E. pose proof (prime_ge_2 p Hp). apply Z.mod_divide in E; [|lia].
    revert E. revert i Hi. apply (natlike_ind (fun i => (p | b ^ i) -> False)).
    - rewrite Z.pow_0_r. intros D. apply Z.divide_1_r_nonneg in D; lia.
    - intros i Hi IH. rewrite Z.pow_succ_r by exact Hi. intros D.
      apply prime_mult in D; [|exact Hp]. destruct D; auto.
  Qed.
  Lemma pow_step x y : 0 <= x -> 0 <= y -> x + y < F -> b ^ x mod p = b ^ (x + y) mod p -> y = 0.
  Proof.
    intros Hx Hy Hxy Ex. pose proof (prime_ge_2 p Hp) as H. rewrite Z.pow_add_r in Ex by assumption.
    assert (D : (p | b ^ x * (b ^ y - 1))).
    { apply Z.mod_divide; [clear - H; lia|]. rewrite Z.mul_sub_distr_l, Z.mul_1_r, Zminus_mod, <- Ex.
      rewrite Z.sub_diag. apply Z.mod_0_l. clear - H; lia. }
    apply prime_mult in D; [|exact Hp]. destruct D as [D|D].
    - exfalso. apply (pow_nz x Hx). apply Z.mod_divide; [clear - H; lia|exact D].
    - assert (B1 : b ^ y mod p = 1).
      { destruct D as (c & Hc). assert (By : b ^ y = 1 + c * p) by (clear - Hc; lia).
        rewrite By, Z.mod_add by (clear - H; lia). apply Z.mod_small. clear - H. lia. }
      apply Ho in B1; [|exact Hy]. destruct B1 as (c & Hc). clear - Hc Hx Hy Hxy HF.
      assert (c < 1) by nia. assert (0 <= c) by nia. assert (c = 0) by lia. subst. lia.
  Qed.
  Lemma pow_inj i j : 0 <= i < F -> 0 <= j < F -> b ^ i mod p = b ^ j mod p -> i = j.
  Proof.
    intros Hi Hj E. destruct (Z_le_gt_dec i j) as [L|L].
    - replace j with (i + (j - i)) in E by (clear; lia). apply pow_step in E; clear - Hi Hj L E || clear - Hi Hj L; lia.
    - symmetry in E. replace i with (j + (i - j)) in E by (clear; lia). apply pow_step in E; clear - Hi Hj L E || clear - Hi Hj L; lia.
  Qed.
  Definition residue (i : nat) : nat := Z.to_nat (b ^ Z.of_nat i mod p).
  Lemma residue_range i : (1 <= residue i < Z.to_nat p)%nat.
  Proof.
    unfold residue. pose proof (prime_ge_2 p Hp).
    pose proof (Z.mod_pos_bound (b ^ Z.of_nat i) p ltac:(lia)). pose proof (pow_nz (Z.of_nat i) ltac:(lia)).
    set (v := b ^ Z.of_nat i mod p) in *. clearbody v. lia.
  Qed.
  Lemma residue_inj i j : (i < Z.to_nat F)%nat -> (j < Z.to_nat F)%nat -> residue i = residue j -> i = j.
  Proof.
    unfold residue. intros Hi Hj E. pose proof (prime_ge_2 p Hp) as H2.
    pose proof (Z.mod_pos_bound (b ^ Z.of_nat i) p ltac:(lia)) as B1.
    pose proof (Z.mod_pos_bound (b ^ Z.of_nat j) p ltac:(lia)) as B2.
    apply Z2Nat.inj in E; [|apply B1|apply B2].
    apply pow_inj in E; [clear - E; lia|clear - Hi; lia|clear - Hj; lia].
  Qed.
  Lemma NoDup_map_in {A B} (f : A -> B) l :
    (forall x y, In x l -> In y l -> f x = f y -> x = y) -> NoDup l -> NoDup (map f l).
  Proof.
    intros Hf. induction 1 as [|x l Hx Hl IH]; cbn [map]; constructor.
    - intros Hin. apply in_map_iff in Hin as (y & E & Hy). apply Hf in E; [|now right|now left]. subst. contradiction.
    - apply IH. intros; apply Hf; [now right..|assumption].
  Qed.
  (* b^0 .. b^(F-1) lie in 1..p-1 and are distinct *)
  Lemma distinct_powers : F < p.
  Proof.
    pose proof (prime_ge_2 p Hp) as H2.
    assert (Inc : incl (map residue (seq 0 (Z.to_nat F))) (seq 1 (Z.to_nat p - 1))).
    { intros x Hx. apply in_map_iff in Hx as (i & <- & Hi). apply in_seq.
      pose proof (residue_range i) as R. set (v := residue i) in *. clearbody v. clear - R H2. lia. }
    assert (ND : NoDup (map residue (seq 0 (Z.to_nat F)))).
    { apply NoDup_map_in; [|apply seq_NoDup]. intros i j Hi Hj. apply in_seq in Hi, Hj. apply residue_inj; lia. }
    pose proof (NoDup_incl_length ND Inc) as Len. rewrite map_length, !seq_length in Len. clear - Len H2 HF. lia.
  Qed.
End Powers.

Lemma cert_prime n a R qs : Forall prime qs -> cert_ok n a R qs = true -> prime n.
Proof.
  intros Hqs H. unfold cert_ok in H. cbv zeta in H. set (F := prodl qs) in *.
  apply andb_true_iff in H as [H Hall]. apply andb_true_iff in H as [H H0]. apply andb_true_iff in H as [H H1].
  apply andb_true_iff in H as [H H2]. apply andb_true_iff in H as [H H3]. apply andb_true_iff in H as [H H4].
  apply Z.ltb_lt in H. apply Z.eqb_eq in H4. apply Z.leb_le in H3. apply Z.ltb_lt in H2, H1. apply Z.eqb_eq in H0.
  assert (HF : 0 < F) by nia.
  assert (Main : forall p, prime p -> (p | n) -> F < p).
  { intros p Hp Hdiv. pose proof (prime_ge_2 p Hp).
    assert (Red : forall k, 0 <= k -> a ^ k mod n = 1 -> a ^ k mod p = 1).
    { intros k Hk E. destruct Hdiv as (c & Hc).
      rewrite (Z.div_mod (a ^ k) n) by lia. rewrite E, Hc. replace (c * p * (a ^ k / (c * p)) + 1) with (1 + c * (a ^ k / (c * p)) * p) by ring.
      rewrite Z.mod_add by lia. apply Z.mod_small. lia. }
    assert (A1 : a ^ (n - 1) mod n = 1).
    { rewrite powm_spec in H0 by lia. rewrite Z2Pos.id in H0 by lia. exact H0. }
    set (b := a ^ R).
    assert (Hpb : ~ (p | b)).
    { intros D. pose proof (Red (n - 1) ltac:(lia) A1) as E.
      replace (n - 1) with (R * F) in E by lia. rewrite Z.pow_mul_r in E by lia. fold b in E.
      replace F with (Z.succ (F - 1)) in E by lia. rewrite Z.pow_succ_r in E by lia.
      destruct D as (c & Hc). rewrite Hc in E at 1. replace (c * p * b ^ (F - 1)) with (c * b ^ (F - 1) * p) in E by ring.
      rewrite Z.mod_mul in E by lia. discriminate. }
    apply (distinct_powers p b F Hp HF Hpb).
    assert (Hinv : forall x y, 0 <= x -> 0 <= y -> b ^ x mod p = 1 -> b ^ (x + y) mod p = b ^ y mod p).
    { intros x y Hx Hy E. rewrite Z.pow_add_r by lia. rewrite Z.mul_mod, E, Z.mul_1_l, Z.mod_mod by lia. reflexivity. }
    apply (order_exact (fun k => b ^ k mod p = 1)).
    - rewrite Z.pow_0_r. apply Z.mod_small. lia.
    - intros x y Hx Hy Ex Ey. now rewrite Hinv.
    - intros x y Hx Hy Ex Ey. now rewrite Hinv in Ey.
    - exact HF.
    - unfold b. rewrite <- Z.pow_mul_r by lia. apply Red; [lia|]. replace (R * F) with (n - 1) by lia. exact A1.
    - intros q Hq Hqd E.
      assert (Hin : In q qs) by (apply prime_in_prod; assumption).
      rewrite forallb_forall in Hall. pose proof (Hall q Hin) as Hc.
      apply andb_true_iff in Hc as [Hc Hg]. apply andb_true_iff in Hc as [Hc1 Hc2].
      apply Z.ltb_lt in Hc1. apply Z.eqb_eq in Hc2, Hg.
      assert (HFq : 0 < F / q) by (clear - Hc2 Hc1 HF; nia).
      set (G := F / q) in *. clearbody G.
      assert (HRG : 0 < R * G) by (clear - HFq H2; nia).
      rewrite powm_spec in Hg by (clear - H; lia). rewrite Z2Pos.id in Hg by exact HRG.
      unfold b in E. rewrite <- Z.pow_mul_r in E by (clear - HFq H2; lia).
      set (v := a ^ (R * G)) in *. clearbody v.
      assert (D : (p | v mod n - 1)).
      { destruct Hdiv as (c & Hcn).
        assert (D1 : (p | v - 1)).
        { exists (v / p). pose proof (Z.div_mod v p ltac:(clear - H5; lia)) as DM. rewrite E in DM. clear - DM. lia. }
        destruct D1 as (d & Hd). exists (d - c * (v / n)).
        rewrite Z.mod_eq by (clear - H; lia). rewrite Hcn at 1. clear - Hd. lia. }
      assert (D2 : (p | Z.gcd (v mod n - 1) n)) by now apply Z.gcd_greatest.
      rewrite Hg in D2. apply Z.divide_1_r_nonneg in D2; clear - H5 D2 || clear - H5; lia. }
  destruct (prime_dec n) as [P|NP]; [exact P|exfalso].
  destruct (not_prime_divide n H NP) as (d & Hd & (e & He)).
  destruct (prime_divisor d) as (p & Pp & Dp); [lia|].
  assert (He1 : 1 < e) by nia.
  destruct (prime_divisor e) as (r & Pr & Dr); [lia|].
  assert (Lp : F < p) by (apply Main; [exact Pp|]; apply Z.divide_trans with d; [exact Dp|exists e; lia]).
  assert (Lr : F < r) by (apply Main; [exact Pr|]; apply Z.divide_trans with e; [exact Dr|exists d; lia]).
  apply Z.divide_pos_le in Dp, Dr; try lia. nia.
Qed.

(* small primes by trial division *)
Fixpoint no_div (k : nat) (d n : Z) : bool :=
  match k with
  | O => n <? d * d
  | S k => if n <? d * d then true else if n mod d =? 0 then false else no_div k (d + 1) n
  end.
Lemma no_div_spec k : forall d n, 1 < d -> no_div k d n = true -> forall p, prime p -> (p | n) -> d <= p -> n < p * p.
Proof.
  induction k as [|k IH]; intros d n Hd H p Hp Hdiv Hle; cbn [no_div] in H.
  - apply Z.ltb_lt in H. nia.
  - destruct (Z.ltb_spec n (d * d)); [nia|].
    destruct (Z.eqb_spec (n mod d) 0); [discriminate|].
    apply (IH (d + 1) n); auto; [lia|].
    assert (d <> p); [|lia]. intros ->. apply n0. apply Z.mod_divide; [lia|exact Hdiv].
Qed.
Lemma trial_prime k n : 1 < n -> no_div k 2 n = true -> prime n.
Proof.
  intros Hn H. destruct (prime_dec n) as [P|NP]; [exact P|exfalso].
  destruct (not_prime_divide n Hn NP) as (d & Hd & (e & He)).
  destruct (prime_divisor d) as (p & Pp & Dp); [lia|].
  assert (He1 : 1 < e) by nia.
  destruct (prime_divisor e) as (r & Pr & Dr); [lia|].
  pose proof (prime_ge_2 p Pp) as P2. pose proof (prime_ge_2 r Pr) as R2.
  assert (Lp : n < p * p) by (apply (no_div_spec k 2 n); auto; try lia; apply Z.divide_trans with d; [exact Dp|exists e; lia]).
  assert (Lr : n < r * r) by (apply (no_div_spec k 2 n); auto; try lia; apply Z.divide_trans with e; [exact Dr|exists d; lia]).
  apply Z.divide_pos_le in Dp, Dr; try lia. clear - Dp Dr Lp Lr He P2 R2.
  assert (p * r <= n) by (rewrite He, (Z.mul_comm e d); apply Z.mul_le_mono_nonneg; lia).
  destruct (Z_le_gt_dec p r).
  - assert (p * p <= p * r) by (apply Z.mul_le_mono_nonneg_l; lia). lia.
  - assert (r * r <= p * r) by (apply Z.mul_le_mono_nonneg_r; lia). lia.
Qed.

Ltac Zify.zify_post_hook ::= Z.div_mod_to_equations.
