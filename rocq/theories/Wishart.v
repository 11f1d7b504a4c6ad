(* Wishart variates and the covariance factors of generator.pyx, in exact (real) arithmetic.
   Simplification throughout: double is R, so that rounding, overflow and NaN are left out. *)
From Coq Require Import Arith Reals Lra Lia List ZifyNat ZifyBool.
Import ListNotations.
Open Scope R_scope.

(* f 0 + ... + f (n-1) *)
Fixpoint sum (n : nat) (f : nat -> R) : R := match n with O => 0 | S n => sum n f + f n end.

(* a buffer of len doubles; None: not written yet *)
Record buf := { len : nat; at_ : nat -> option R }.
Definition empty (n : nat) : buf := {| len := n; at_ := fun _ => None |}.     (* np.empty *)
(* None: undefined behaviour, out of bounds or not initialised *)
Definition get (b : buf) (i : nat) : option R := if i <? len b then at_ b i else None.
Definition put (b : buf) (i : nat) (v : R) : option buf :=
  if i <? len b then Some {| len := len b; at_ := fun x => if x =? i then Some v else at_ b x |} else None.

Definition obind {A B} (x : option A) (f : A -> option B) : option B := match x with Some a => f a | None => None end.
Fixpoint loop {S} (f : nat -> S -> option S) (is : list nat) (s : S) : option S :=
  match is with [] => Some s | i :: is => obind (f i s) (loop f is) end.

Section Large.
(* the values that random_chisquare and random_standard_normal return, at the loop position
   where they are drawn (simplification: the order of the draws is not modelled) *)
Variables (chi : nat -> nat -> R) (nrm : nat -> nat -> nat -> R).
Variables (dim num : nat).
(* rg-distributions.c:74: w + k * dim2 + i * dim + j, and :76: n + dim * i + j *)
Definition wix (k i j : nat) : nat := k * (dim * dim) + i * dim + j.
Definition nix (i j : nat) : nat := dim * i + j.
(* rg-distributions.c:79-81, the body of the loop over r; the state is (w, n) *)
Definition r_body (k i j r : nat) (m : buf * buf) : option (buf * buf) :=
  let (w, n) := m in
  obind (get w (wix k i j)) (fun a =>
  obind (get n (nix r i)) (fun x =>
  obind (get n (nix r j)) (fun y =>
  obind (put w (wix k i j) (a + x * y)) (fun w => Some (w, n))))).
(* rg-distributions.c:72-83, the body of the loop over j *)
Definition j_body (k i : nat) (vi : R) (j : nat) (m : buf * buf) : option (buf * buf) :=
  let (w, n) := m in
  obind (if i =? j then obind (put w (wix k i j) vi) (fun w => Some (w, n))
         else obind (put n (nix i j) (nrm k i j)) (fun n =>
              obind (get n (nix i j)) (fun x =>
              obind (put w (wix k i j) (x * sqrt vi)) (fun w => Some (w, n)))))
    (fun m =>
  obind (loop (r_body k i j) (seq 0 i) m) (fun m => let (w, n) := m in
  obind (get w (wix k i j)) (fun a =>
  obind (put w (wix k j i) a) (fun w => Some (w, n))))).
(* rg-distributions.c:70-84 *)
Definition i_body (k i : nat) (m : buf * buf) : option (buf * buf) := loop (j_body k i (chi k i)) (seq i (dim - i)) m.
Definition k_body (k : nat) (m : buf * buf) : option (buf * buf) := loop (i_body k) (seq 0 dim) m.
(* rg-distributions.c:60-86 random_wishart_large_df; generator.pyx:796-801 its buffers *)
Definition wishart_large : option (buf * buf) := loop k_body (seq 0 num) (empty (num * (dim * dim)), empty (dim * dim)).

(* the triangle of the Odell-Feiveson method *)
Definition tri (k r c : nat) : R := if r =? c then sqrt (chi k r) else if r <? c then nrm k r c else 0.
Definition Wm (k i j : nat) : R := sum dim (fun r => tri k r i * tri k r j).
End Large.
(* rg-distributions.c:71: the degrees of freedom of the chi-square draw, (double)(df - i) *)
Definition chi_df (df i : Z) : Z := df - i.
(* generator.pyx:722-726 random_wishart_small_df: matmul(transpose(n), n) for n of df by dim normals *)
Definition small_df (df : nat) (n : nat -> nat -> R) (i j : nat) : R := sum df (fun r => n r i * n r j).
(* generator.pyx:806-807 out /= df *)
Definition rescaled (df : R) (w : nat -> nat -> R) (i j : nat) : R := w i j / df.
(* generator.pyx:917-918, 984-985: matmul(matmul(factor, w), factor.T) *)
Definition sandwich (dim : nat) (f w : nat -> nat -> R) (i j : nat) : R := sum dim (fun b => sum dim (fun a => f i a * w a b) * f j b).

(* generator.pyx:75 and :88 (u * sqrt(s)).T, where s >= 0; :93 cholesky(cov).T; :77 factor *)
Definition factor_us (u : nat -> nat -> R) (s : nat -> R) (r c : nat) : R := u c r * sqrt (s r).
Definition factor_chol (l : nat -> nat -> R) (r c : nat) : R := l c r.

(* x' A x *)
Definition qform (dim : nat) (a : nat -> nat -> R) (x : nat -> R) : R := sum dim (fun i => sum dim (fun j => x i * a i j * x j)).
(* A' A and A A' *)
Definition gram (rows : nat) (a : nat -> nat -> R) (i j : nat) : R := sum rows (fun r => a r i * a r j).
Definition outer (cols : nat) (a : nat -> nat -> R) (i j : nat) : R := sum cols (fun c => a i c * a j c).

(* ------------------------------------------------ sums *)
Lemma sum_ext n f g : (forall i, (i < n)%nat -> f i = g i) -> sum n f = sum n g.
Proof. induction n as [|n IH]; intros H; cbn [sum]; [reflexivity|]. rewrite IH by (intros; apply H; lia). now rewrite H by lia. Qed.
Lemma sum_add n f g : sum n (fun i => f i + g i) = sum n f + sum n g.
Proof. induction n as [|n IH]; cbn [sum]; [lra|]. rewrite IH. lra. Qed.
Lemma sum_mul n c f : sum n (fun i => c * f i) = c * sum n f.
Proof. induction n as [|n IH]; cbn [sum]; [lra|]. rewrite IH. lra. Qed.
Lemma sum_mul_r n c f : sum n (fun i => f i * c) = sum n f * c.
Proof. induction n as [|n IH]; cbn [sum]; [lra|]. rewrite IH. lra. Qed.
Lemma sum_0 n f : (forall i, (i < n)%nat -> f i = 0) -> sum n f = 0.
Proof. induction n as [|n IH]; intros H; cbn [sum]; [reflexivity|]. rewrite IH by (intros; apply H; lia). rewrite H by lia. lra. Qed.
Lemma sum_swap n m f : sum n (fun i => sum m (fun j => f i j)) = sum m (fun j => sum n (fun i => f i j)).
Proof.
  induction n as [|n IH]; cbn [sum]; [symmetry; apply sum_0; reflexivity|]. rewrite IH, <- sum_add. reflexivity.
Qed.
Lemma sum_nonneg n f : (forall i, (i < n)%nat -> 0 <= f i) -> 0 <= sum n f.
Proof. induction n as [|n IH]; intros H; cbn [sum]; [lra|]. specialize (IH ltac:(intros; apply H; lia)). specialize (H n ltac:(lia)). lra. Qed.
Lemma sum_split a : forall b f, sum (a + b) f = sum a f + sum b (fun i => f (a + i)%nat).
Proof. induction b as [|b IH]; intros f; [rewrite Nat.add_0_r; cbn; lra|]. rewrite Nat.add_succ_r. cbn [sum]. rewrite IH. lra. Qed.
Lemma sum_one n k f : (k < n)%nat -> (forall i, (i < n)%nat -> i <> k -> f i = 0) -> sum n f = f k.
Proof.
  intros K Z. replace n with (k + (1 + (n - k - 1)))%nat by lia. rewrite sum_split, sum_split. cbn [sum]. rewrite Nat.add_0_r.
  rewrite (sum_0 k f) by (intros; apply Z; lia). rewrite (sum_0 (n - k - 1)) by (intros; apply Z; lia). lra.
Qed.
Lemma qform_gram dim rows a x : qform dim (gram rows a) x = sum rows (fun r => Rsqr (sum dim (fun i => x i * a r i))).
Proof.
  unfold qform, gram, Rsqr.
  transitivity (sum dim (fun i => sum dim (fun j => sum rows (fun r => (x i * a r i) * (x j * a r j))))).
  - apply sum_ext; intros i _. apply sum_ext; intros j _. rewrite <- sum_mul, <- sum_mul_r. apply sum_ext; intros r _. ring.
  - transitivity (sum dim (fun i => sum rows (fun r => (x i * a r i) * sum dim (fun j => x j * a r j)))).
    + apply sum_ext; intros i _. rewrite sum_swap. apply sum_ext; intros r _. apply sum_mul.
    + rewrite sum_swap. apply sum_ext; intros r _. apply sum_mul_r.
Qed.
Lemma gram_psd dim rows a x : 0 <= qform dim (gram rows a) x.
Proof. rewrite qform_gram. apply sum_nonneg. intros. apply Rle_0_sqr. Qed.
Lemma gram_sym rows a i j : gram rows a i j = gram rows a j i.
Proof. apply sum_ext; intros; ring. Qed.
Lemma qform_ext dim a b x : (forall i j, (i < dim)%nat -> (j < dim)%nat -> a i j = b i j) -> qform dim a x = qform dim b x.
Proof. intros H. apply sum_ext; intros i I. apply sum_ext; intros j J. now rewrite H. Qed.
(* F (A'A) F' is the Gram matrix of A F' *)
Lemma sandwich_gram dim rows f a i j :
  sandwich dim f (gram rows a) i j = gram rows (fun r c => sum dim (fun b => a r b * f c b)) i j.
Proof.
  unfold sandwich, gram.
  transitivity (sum dim (fun b => sum rows (fun r => sum dim (fun c => a r c * f i c) * (a r b * f j b)))).
  - apply sum_ext; intros b _. transitivity (sum dim (fun c => sum rows (fun r => (a r c * f i c) * (a r b * f j b)))).
    + rewrite <- sum_mul_r. apply sum_ext; intros c _. rewrite <- sum_mul, <- sum_mul_r. apply sum_ext; intros r _. ring.
    + rewrite sum_swap. apply sum_ext; intros r _. apply sum_mul_r.
  - rewrite sum_swap. apply sum_ext; intros r _. apply sum_mul.
Qed.

(* ------------------------------------------------ the loops *)
Lemma loop_inv {S} (f : nat -> S -> option S) (I : nat -> S -> Prop) a n s :
  (forall i s, (a <= i < a + n)%nat -> I i s -> exists s', f i s = Some s' /\ I (Datatypes.S i) s') ->
  I a s -> exists s', loop f (seq a n) s = Some s' /\ I (a + n)%nat s'.
Proof.
  revert a s. induction n as [|n IH]; intros a s H I0; cbn [seq loop]; [exists s; rewrite Nat.add_0_r; split; [reflexivity|exact I0]|].
  destruct (H a s ltac:(lia) I0) as (s1 & E & I1). rewrite E. cbn [obind].
  destruct (IH (Datatypes.S a) s1) as (s2 & E2 & I2); [intros; apply H; [lia|assumption]|exact I1|].
  exists s2. split; [exact E2|]. now rewrite Nat.add_succ_r.
Qed.
Lemma put_ok b i v : (i < len b)%nat -> exists b', put b i v = Some b' /\ len b' = len b /\ get b' i = Some v /\ forall x, x <> i -> get b' x = get b x.
Proof.
  intros H. unfold put, get. replace (i <? len b)%nat with true by lia. eexists. split; [reflexivity|]. cbn [len at_].
  replace (i <? len b)%nat with true by lia. split; [reflexivity|]. split; [now rewrite Nat.eqb_refl|].
  intros x X. replace (x =? i)%nat with false by lia. reflexivity.
Qed.
Lemma row_inj d a b a' b' : (b < d)%nat -> (b' < d)%nat -> (a * d + b = a' * d + b')%nat -> a = a' /\ b = b'.
Proof.
  intros B B' E. assert (A : a = a').
  { apply (f_equal (fun x => x / d)%nat) in E. rewrite !Nat.div_add_l, !Nat.div_small, !Nat.add_0_r in E by lia. exact E. }
  subst a'. lia.
Qed.

Section Facts.
Variables (chi : nat -> nat -> R) (nrm : nat -> nat -> nat -> R) (dim num : nat).
Hypothesis chi_nonneg : forall k i, 0 <= chi k i.
Notation wix := (wix dim). Notation nix := (nix dim).
Lemma wix_inj k i j k' i' j' : (i < dim)%nat -> (j < dim)%nat -> (i' < dim)%nat -> (j' < dim)%nat -> wix k i j = wix k' i' j' -> k = k' /\ i = i' /\ j = j'.
Proof.
  intros I J I' J' E. unfold Wishart.wix in E. replace (k * (dim * dim) + i * dim + j)%nat with ((k * dim + i) * dim + j)%nat in E by ring.
  replace (k' * (dim * dim) + i' * dim + j')%nat with ((k' * dim + i') * dim + j')%nat in E by ring.
  apply row_inj in E; [|assumption..]. destruct E as [E ->]. apply row_inj in E; [|assumption..]. tauto.
Qed.
Lemma wix_bound k i j : (k < num)%nat -> (i < dim)%nat -> (j < dim)%nat -> (wix k i j < num * (dim * dim))%nat.
Proof. intros K I J. unfold Wishart.wix. nia. Qed.
Lemma nix_inj i j i' j' : (j < dim)%nat -> (j' < dim)%nat -> nix i j = nix i' j' -> i = i' /\ j = j'.
Proof. intros J J' E. unfold Wishart.nix in E. apply (row_inj dim); [assumption..|]. lia. Qed.
Lemma nix_bound i j : (i < dim)%nat -> (j < dim)%nat -> (nix i j < dim * dim)%nat.
Proof. intros I J. unfold Wishart.nix. nia. Qed.

(* the entry for i <= j is the value for r = i and the products for r < i *)
Definition part (k i j r : nat) : R := tri chi nrm k i i * tri chi nrm k i j + sum r (fun r => tri chi nrm k r i * tri chi nrm k r j).
Lemma Wm_part k i j : (i <= j)%nat -> (j < dim)%nat -> Wm chi nrm dim k i j = part k i j i.
Proof.
  intros I J. unfold Wm, part. replace dim with (i + (1 + (dim - i - 1)))%nat at 1 by lia. rewrite sum_split, sum_split. cbn [sum]. rewrite Nat.add_0_r.
  rewrite (sum_0 (dim - i - 1)); [lra|]. intros x _. unfold tri at 1. replace (i + (1 + x) =? i)%nat with false by lia. replace (i + (1 + x) <? i)%nat with false by lia. lra.
Qed.
Lemma Wm_sym k i j : Wm chi nrm dim k i j = Wm chi nrm dim k j i.
Proof. apply sum_ext; intros; ring. Qed.

(* matrices before k, entries (a, b) of matrix k with min a b < i, and of row and column i those before j *)
Definition wdone (k i j : nat) (w : buf) : Prop :=
  len w = (num * (dim * dim))%nat
  /\ (forall k' a b, (k' < k)%nat -> (a < dim)%nat -> (b < dim)%nat -> get w (wix k' a b) = Some (Wm chi nrm dim k' a b))
  /\ (forall a b, (a < dim)%nat -> (b < dim)%nat -> (Nat.min a b < i)%nat -> get w (wix k a b) = Some (Wm chi nrm dim k a b))
  /\ (forall b, (i <= b < j)%nat -> (b < dim)%nat -> get w (wix k i b) = Some (Wm chi nrm dim k i b) /\ get w (wix k b i) = Some (Wm chi nrm dim k b i)).
Definition ndone (k i j : nat) (n : buf) : Prop :=
  len n = (dim * dim)%nat
  /\ (forall r c, (r < i)%nat -> (r < c)%nat -> (c < dim)%nat -> get n (nix r c) = Some (nrm k r c))
  /\ (forall c, (i < c < j)%nat -> (c < dim)%nat -> get n (nix i c) = Some (nrm k i c)).
Definition inv (k i j : nat) (m : buf * buf) : Prop := wdone k i j (fst m) /\ ndone k i j (snd m).

Lemma r_loop k i j w n : (k < num)%nat -> (i <= j)%nat -> (j < dim)%nat ->
  len w = (num * (dim * dim))%nat -> ndone k i j n -> get w (wix k i j) = Some (part k i j 0) ->
  exists w', loop (r_body dim k i j) (seq 0 i) (w, n) = Some (w', n) /\ len w' = len w /\ get w' (wix k i j) = Some (part k i j i)
    /\ forall x, x <> wix k i j -> get w' x = get w x.
Proof.
  intros K I J L (NL & N1 & _) G.
  destruct (loop_inv (r_body dim k i j) (fun r m => snd m = n /\ len (fst m) = len w /\ get (fst m) (wix k i j) = Some (part k i j r)
    /\ forall x, x <> wix k i j -> get (fst m) x = get w x) 0 i (w, n)) as ([w' n'] & E & Q).
  - intros r [w1 n1] Hr (A & B & C & D). cbn [fst snd] in *. subst n1. unfold r_body. rewrite C. cbn [obind].
    rewrite (N1 r i) by lia. cbn [obind]. rewrite (N1 r j) by lia. cbn [obind].
    destruct (put_ok w1 (wix k i j) (part k i j r + nrm k r i * nrm k r j)) as (w2 & P & L2 & G2 & O2); [rewrite B, L; apply wix_bound; lia|].
    rewrite P. cbn [obind]. exists (w2, n). split; [reflexivity|]. cbn [fst snd]. split; [reflexivity|]. split; [congruence|]. split.
    + rewrite G2. unfold part. cbn [sum]. replace (tri chi nrm k r i) with (nrm k r i) by (unfold tri; replace (r =? i)%nat with false by lia; replace (r <? i)%nat with true by lia; reflexivity).
      replace (tri chi nrm k r j) with (nrm k r j) by (unfold tri; replace (r =? j)%nat with false by lia; replace (r <? j)%nat with true by lia; reflexivity). f_equal. lra.
    + intros x X. rewrite O2 by exact X. now apply D.
  - cbn [fst snd]. repeat split; try assumption; reflexivity.
  - cbn [fst snd] in Q. destruct Q as (-> & A & B & C). rewrite Nat.add_0_l in B. exists w'. repeat split; assumption.
Qed.

Lemma j_step k i j m : (k < num)%nat -> (i <= j)%nat -> (j < dim)%nat -> inv k i j m ->
  exists m', j_body nrm dim k i (chi k i) j m = Some m' /\ inv k i (S j) m'.
Proof.
  destruct m as [w n]. intros K I J [(WL & W1 & W2 & W3) (NL & N1 & N2)]. cbn [fst snd] in *. unfold j_body.
  assert (B : exists w1 n1, (if (i =? j)%nat then obind (put w (wix k i j) (chi k i)) (fun w => Some (w, n))
         else obind (put n (nix i j) (nrm k i j)) (fun n =>
              obind (get n (nix i j)) (fun x =>
              obind (put w (wix k i j) (x * sqrt (chi k i))) (fun w => Some (w, n))))) = Some (w1, n1)
     /\ len w1 = len w /\ get w1 (wix k i j) = Some (part k i j 0) /\ (forall x, x <> wix k i j -> get w1 x = get w x) /\ ndone k i (S j) n1).
  { destruct (i =? j)%nat eqn:E.
    - assert (i = j) by lia. subst j. destruct (put_ok w (wix k i i) (chi k i)) as (w1 & P & L1 & G1 & O1); [rewrite WL; now apply wix_bound|].
      rewrite P. exists w1, n. split; [reflexivity|]. split; [exact L1|]. split; [|split; [exact O1|]].
      + rewrite G1. unfold part, tri. rewrite Nat.eqb_refl. cbn [sum]. rewrite sqrt_sqrt by apply chi_nonneg. f_equal. lra.
      + split; [exact NL|]. split; [exact N1|]. intros c C Cd. lia.
    - destruct (put_ok n (nix i j) (nrm k i j)) as (n1 & Pn & Ln & Gn & On); [rewrite NL; apply nix_bound; lia|]. rewrite Pn. cbn [obind]. rewrite Gn. cbn [obind].
      destruct (put_ok w (wix k i j) (nrm k i j * sqrt (chi k i))) as (w1 & P & L1 & G1 & O1); [rewrite WL; apply wix_bound; lia|]. rewrite P. cbn [obind].
      exists w1, n1. split; [reflexivity|]. split; [exact L1|]. split; [|split; [exact O1|]].
      + rewrite G1. unfold part, tri. rewrite Nat.eqb_refl, E. replace (i <? j)%nat with true by lia. cbn [sum]. f_equal. lra.
      + split; [congruence|]. split.
        * intros r c R C Cd. rewrite On; [now apply N1|]. intros X. apply nix_inj in X; lia.
        * intros c C Cd. destruct (Nat.eq_dec c j) as [->|X]; [exact Gn|]. rewrite On; [apply N2; lia|]. intros Y. apply nix_inj in Y; lia. }
  destruct B as (w1 & n1 & -> & L1 & G1 & O1 & ND). cbn [obind].
  assert (ND0 : ndone k i j n1). { destruct ND as (A & B & C). split; [exact A|]. split; [exact B|]. intros c Hc Cd. apply C; lia. }
  destruct (r_loop k i j w1 n1 K I J ltac:(congruence) ND0 G1) as (w2 & -> & L2 & G2 & O2). cbn [obind]. rewrite G2. cbn [obind].
  destruct (put_ok w2 (wix k j i) (part k i j i)) as (w3 & -> & L3 & G3 & O3); [rewrite L2, L1, WL; apply wix_bound; lia|]. cbn [obind].
  exists (w3, n1). split; [reflexivity|]. split; [|exact ND]. cbn [fst]. rewrite <- Wm_part in * by lia.
  assert (U : forall k' a b, (a < dim)%nat -> (b < dim)%nat -> ~ (k' = k /\ ((a = i /\ b = j) \/ (a = j /\ b = i))) -> get w3 (wix k' a b) = get w (wix k' a b)).
  { intros k' a b A B X. rewrite O3, O2, O1; [reflexivity| | |]; intros E; apply wix_inj in E; lia. }
  assert (V1 : get w3 (wix k i j) = Some (Wm chi nrm dim k i j)).
  { destruct (Nat.eq_dec i j) as [E|E]; [rewrite <- E in *; exact G3|]. rewrite O3; [exact G2|]. intros X. apply wix_inj in X; lia. }
  assert (V2 : get w3 (wix k j i) = Some (Wm chi nrm dim k j i)) by (rewrite G3; f_equal; apply Wm_sym).
  split; [congruence|]. split; [|split].
  - intros k' a b Hk A B. rewrite U by lia. now apply W1.
  - intros a b A B M. rewrite U by lia. now apply W2.
  - intros b B Bd. destruct (Nat.eq_dec b j) as [->|X]; [split; assumption|]. rewrite !U by lia. apply W3; lia.
Qed.
Lemma i_step k i m : (k < num)%nat -> (i < dim)%nat -> inv k i i m -> exists m', i_body chi nrm dim k i m = Some m' /\ inv k (S i) (S i) m'.
Proof.
  intros K I H. destruct (loop_inv (j_body nrm dim k i (chi k i)) (fun j m => inv k i j m) i (dim - i) m) as (m' & E & Q); [|exact H|].
  - intros j s J Hs. apply j_step; [exact K|lia|lia|exact Hs].
  - exists m'. split; [exact E|]. destruct Q as [(WL & W1 & W2 & W3) (NL & N1 & N2)]. split.
    + split; [exact WL|]. split; [exact W1|]. split.
      * intros a b A B M. destruct (Nat.lt_ge_cases (Nat.min a b) i) as [X|X]; [now apply W2|]. destruct (Nat.le_ge_cases a b) as [Y|Y].
        -- assert (a = i) by lia. subst a. apply W3; lia.
        -- assert (b = i) by lia. subst b. apply W3; lia.
      * intros b B. lia.
    + split; [exact NL|]. split.
      * intros r c R C Cd. destruct (Nat.eq_dec r i) as [->|X]; [apply N2; lia|apply N1; lia].
      * intros c C. lia.
Qed.
Lemma k_step k m : (k < num)%nat -> inv k 0 0 m -> exists m', k_body chi nrm dim k m = Some m' /\ inv (S k) 0 0 m'.
Proof.
  intros K H. destruct (loop_inv (i_body chi nrm dim k) (fun i m => inv k i i m) 0 dim m) as (m' & E & Q); [|exact H|].
  - intros i s I Hs. apply i_step; [exact K|lia|exact Hs].
  - exists m'. split; [exact E|]. destruct Q as [(WL & W1 & W2 & W3) (NL & N1 & N2)]. split.
    + split; [exact WL|]. split; [|split].
      * intros k' a b Hk A B. destruct (Nat.eq_dec k' k) as [->|X]; [apply W2; lia|apply W1; lia].
      * intros a b A B M. lia.
      * intros b B. lia.
    + split; [exact NL|]. split; intros; lia.
Qed.
Lemma wishart_large_ok : exists m, wishart_large chi nrm dim num = Some m /\ inv num 0 0 m.
Proof.
  destruct (loop_inv (k_body chi nrm dim) (fun k m => inv k 0 0 m) 0 num (empty (num * (dim * dim)), empty (dim * dim))) as (m' & E & Q).
  - intros k s K Hs. apply k_step; [lia|exact Hs].
  - split; (split; [reflexivity|]); [split; [|split]|split]; intros; lia.
  - exists m'. split; [exact E|exact Q].
Qed.
End Facts.

(* generator.pyx:955-957: _factors = np.empty_like(scale) has the type of scale, so that an
   integer scale (with an array of df) truncates each element of the factor *)
Definition trunc (x : R) : R := if Rle_dec 0 x then IZR (Int_part x) else - IZR (Int_part (- x)).
(* generator.pyx:104-106: LAPACK pstrf gives an upper triangle U and a permutation p with
   U'U = P'AP, the largest remaining diagonal element first; p is thrown away *)
Definition pstrf (dim : nat) (a u : nat -> nat -> R) (p : nat -> nat) : Prop :=
  (forall i j, (i < dim)%nat -> (j < dim)%nat -> gram dim u i j = a (p i) (p j))
  /\ (forall i, (i < dim)%nat -> (p i < dim)%nat) /\ (forall i j, (i < dim)%nat -> (j < dim)%nat -> p i = p j -> i = j)
  /\ (forall i j, (j < i)%nat -> u i j = 0) /\ (forall i, (i < dim)%nat -> a i i <= a (p O) (p O)).
(* rows: a matrix given by its rows *)
Definition mat (l : list (list R)) (i j : nat) : R := nth j (nth i l []) 0.
Lemma outer_us_diag dim u s i j : (forall r, 0 <= s r) -> (forall a b, gram dim u a b = if (a =? b)%nat then 1 else 0) ->
  outer dim (factor_us u s) i j = if (i =? j)%nat then s i else 0.
Proof.
  intros S O. unfold outer, factor_us. transitivity (gram dim u i j * (sqrt (s i) * sqrt (s j))).
  - unfold gram. rewrite <- sum_mul_r. apply sum_ext; intros; ring.
  - rewrite O. destruct (Nat.eqb_spec i j) as [->|]; [rewrite sqrt_sqrt by apply S; lra|lra].
Qed.
