(* C69-C71: complex normal variates. *)
From Verif Require Import Word Py Shape Complex.
From Coq Require Import Arith Reals Lra Psatz Lia List ZifyBool ZifyNat ZifyN.
Import ListNotations.
Ltac Zify.zify_post_hook ::= idtac.
Open Scope R_scope.

(* ------------------------------------------------------------------- C69 *)
(* The variate is loc plus a linear map of two independent standard normals; the documented
   covariance: variances 0.5 Re(gamma + relation) and 0.5 Re(gamma - relation), covariance
   0.5 Im(relation) *)
Definition documented (gamma relation loc : cplx) (f : R -> R -> cplx) : Prop :=
  exists a b c d,
    (forall x y, re (f x y) = re loc + (a * x + b * y) /\ im (f x y) = im loc + (c * x + d * y)) /\
    a * a + b * b = / 2 * (re gamma + re relation) /\
    c * c + d * d = / 2 * (re gamma - re relation) /\
    a * c + b * d = / 2 * im relation.
(* the covariance matrix is one *)
Definition possible (gamma relation : cplx) : Prop :=
  im gamma = 0 /\ 0 <= re gamma + re relation /\ 0 <= re gamma - re relation /\
  im relation * im relation <= (re gamma + re relation) * (re gamma - re relation).

Lemma quot_sq c v w : 0 < v -> 0 < w -> (c / sqrt (v * w)) * (c / sqrt (v * w)) * (v * w) = c * c.
Proof.
  intros V W. assert (P : 0 < v * w) by (apply Rmult_lt_0_compat; assumption). pose proof (sqrt_lt_R0 _ P) as Q.
  rewrite <- (sqrt_sqrt (v * w)) at 3 by lra. field. lra.
Qed.
Lemma covariance vr vi c rho : 0 <= vr -> 0 <= vi -> -1 <= rho <= 1 -> rho * sqrt vr * sqrt vi = c ->
  exists a b e d, (forall loc x y, re (compute_complex loc (CN vr vi rho) x y) = re loc + (a * x + b * y) /\ im (compute_complex loc (CN vr vi rho) x y) = im loc + (e * x + d * y)) /\
    a * a + b * b = vr /\ e * e + d * d = vi /\ a * e + b * d = c.
Proof.
  intros V W R C. exists (sqrt vr), 0, (sqrt vi * rho), (sqrt vi * sqrt (1 - rho * rho)). split.
  - intros loc x y. unfold compute_complex, re, im. cbn [fst snd cn_vr cn_vi cn_rho]. split; ring.
  - pose proof (sqrt_sqrt vr V) as A. pose proof (sqrt_sqrt vi W) as B. assert (D : 0 <= 1 - rho * rho) by nra. pose proof (sqrt_sqrt _ D) as E.
    split; [lra|]. split.
    + transitivity (sqrt vi * sqrt vi * (rho * rho + sqrt (1 - rho * rho) * sqrt (1 - rho * rho))); [ring|]. rewrite B, E. ring.
    + rewrite <- C. ring.
Qed.
Lemma rabs_1 x : Rabs x <= 1 -> -1 <= x <= 1.
Proof. unfold Rabs. destruct (Rcase_abs x); lra. Qed.
Lemma rho_scales c v w : 0 < v -> 0 < w -> c / sqrt (v * w) * sqrt v * sqrt w = c.
Proof.
  intros V W. rewrite sqrt_mult by lra. pose proof (sqrt_lt_R0 _ V). pose proof (sqrt_lt_R0 _ W). field. split; lra.
Qed.

(* the array version accepts exactly the parameters for which there is such a distribution *)
Theorem C69_array_accepts : forall gamma relation, (exists p, cn_elem gamma relation = Ok p) <-> possible gamma relation.
Proof.
  intros [g gi] [r ri]. unfold cn_elem, possible, re, im. cbn [fst snd].
  set (vr := / 2 * (g + r)). set (vi := / 2 * (g - r)). set (c := / 2 * ri).
  assert (A : g + r = 2 * vr) by (unfold vr; lra). assert (B : g - r = 2 * vi) by (unfold vi; lra). assert (C : ri = 2 * c) by (unfold c; lra).
  rewrite A, B, C. clearbody vr vi c. clear A B C.
  destruct (Rlt_dec vr 0) as [N|N]; [split; [intros [p [=]]|intros H; lra]|].
  destruct (Rlt_dec vi 0) as [N'|N']; [split; [intros [p [=]]|intros H; lra]|].
  destruct (Req_EM_T gi 0) as [G|G]; [|split; [intros [p [=]]|intros H; tauto]].
  destruct (Rlt_dec 0 vr) as [V|V].
  - destruct (Rlt_dec 0 vi) as [W|W].
    + pose proof (quot_sq c vr vi V W) as Q. set (rho := c / sqrt (vr * vi)) in *. assert (P : 0 < vr * vi) by (apply Rmult_lt_0_compat; assumption).
      destruct (Rlt_dec 1 (Rabs rho)) as [T|T]; split.
      * intros [p [=]].
      * intros (_ & _ & _ & H). exfalso. assert (1 < rho * rho) by (replace (rho * rho) with (Rabs rho * Rabs rho) by (rewrite <- Rabs_mult; apply Rabs_pos_eq; nra); nra). nra.
      * intros _. split; [exact G|]. split; [lra|]. split; [lra|]. assert (rho * rho <= 1); [|nra].
        replace (rho * rho) with (Rabs rho * Rabs rho) by (rewrite <- Rabs_mult; apply Rabs_pos_eq; nra). pose proof (Rabs_pos rho). nra.
      * intros _. eexists. reflexivity.
    + assert (vi = 0) by lra. subst vi. destruct (Req_EM_T c 0) as [Z|Z]; split.
      * intros _. subst c. repeat split; nra.
      * intros _. eexists. reflexivity.
      * intros [p [=]].
      * intros (_ & _ & _ & H). exfalso. nra.
  - assert (vr = 0) by lra. subst vr. destruct (Req_EM_T c 0) as [Z|Z]; split.
    + intros _. subst c. repeat split; nra.
    + intros _. eexists. reflexivity.
    + intros [p [=]].
    + intros (_ & _ & _ & H). exfalso. nra.
Qed.
(* and draws from it *)
Theorem C69_array_covariance : forall gamma relation p loc, cn_elem gamma relation = Ok p -> documented gamma relation loc (compute_complex loc p).
Proof.
  intros [g gi] [r ri] p loc. intros E. unfold cn_elem, re, im in E. cbn [fst snd] in E. revert E. unfold documented.
  set (vr := / 2 * (g + r)). set (vi := / 2 * (g - r)). set (c := / 2 * ri).
  destruct (Rlt_dec vr 0) as [N|N]; [discriminate|]. destruct (Rlt_dec vi 0) as [N'|N']; [discriminate|].
  destruct (Req_EM_T gi 0) as [G|G]; [|discriminate].
  assert (K : forall rho, -1 <= rho <= 1 -> rho * sqrt vr * sqrt vi = c -> exists a b c0 d, (forall x y, re (compute_complex loc (CN vr vi rho) x y) = re loc + (a * x + b * y) /\
     im (compute_complex loc (CN vr vi rho) x y) = im loc + (c0 * x + d * y)) /\ a * a + b * b = / 2 * (re (g, gi) + re (r, ri)) /\ c0 * c0 + d * d = / 2 * (re (g, gi) - re (r, ri)) /\ a * c0 + b * d = / 2 * im (r, ri)).
  { intros rho B E. destruct (covariance vr vi c rho) as (a & b & e & d & F & H); try lra. exists a, b, e, d. split; [intros; apply F|exact H]. }
  destruct (Rlt_dec 0 vr) as [V|V]; [destruct (Rlt_dec 0 vi) as [W|W]|].
  - destruct (Rlt_dec 1 (Rabs (c / sqrt (vr * vi)))) as [T|T]; [discriminate|]. intros [= <-]. apply K.
    + apply Rnot_lt_le in T. apply rabs_1. exact T.
    + now apply rho_scales.
  - destruct (Req_EM_T c 0) as [Z|Z]; [|discriminate]. intros [= <-]. apply K; lra.
  - destruct (Req_EM_T c 0) as [Z|Z]; [|discriminate]. intros [= <-]. apply K; lra.
Qed.
(* where the array version accepts, the scalar one does, with the same parameters *)
Theorem C69_scalar_as_array : forall gamma relation p, cn_elem gamma relation = Ok p -> cn_scalar gamma relation = Ok p.
Proof.
  intros [g gi] [r ri] p. unfold cn_elem, cn_scalar, re, im. cbn [fst snd].
  set (vr := / 2 * (g + r)). set (vi := / 2 * (g - r)). set (c := / 2 * ri).
  destruct (Rlt_dec vr 0) as [N|N]; [discriminate|]. destruct (Rlt_dec vi 0) as [N'|N']; [discriminate|].
  destruct (Req_EM_T gi 0) as [G|G]; [|discriminate]. rewrite (Rmult_comm vi vr).
  destruct (Rlt_dec 0 vr) as [V|V]; destruct (Rlt_dec 0 vi) as [W|W].
  - set (rho := c / sqrt (vr * vi)). destruct (Rlt_dec 1 (Rabs rho)) as [T|T]; [discriminate|]. intros [= <-]. apply Rnot_lt_le, rabs_1 in T.
    destruct (Rlt_dec 1 rho); [lra|]. destruct (Rlt_dec rho (-1)); [lra|]. reflexivity.
  - destruct (Req_EM_T c 0); [|discriminate]. intros [= <-]. destruct (Rlt_dec 1 0); [lra|]. destruct (Rlt_dec 0 (-1)); [lra|]. reflexivity.
  - destruct (Req_EM_T c 0); [|discriminate]. intros [= <-]. destruct (Rlt_dec 1 0); [lra|]. destruct (Rlt_dec 0 (-1)); [lra|]. reflexivity.
  - destruct (Req_EM_T c 0); [|discriminate]. intros [= <-]. destruct (Rlt_dec 1 0); [lra|]. destruct (Rlt_dec 0 (-1)); [lra|]. reflexivity.
Qed.
(* The scalar version draws from the documented distribution when there is one *)
Theorem C69_scalar_covariance_partial :
  forall gamma relation p loc, possible gamma relation -> cn_scalar gamma relation = Ok p -> documented gamma relation loc (compute_complex loc p).
Proof.
  intros gamma relation p loc H E. destruct (proj2 (C69_array_accepts gamma relation) H) as [q Q].
  rewrite (C69_scalar_as_array _ _ _ Q) in E. injection E as <-. now apply C69_array_covariance.
Qed.
(* but it does not raise for every impossible covariance: with one variance 0 the covariance is
   not looked at. The array version raises for the same values. *)
Theorem C69_scalar_degenerate_refuted :
  forall v k, 0 <= v -> k <> 0 ->
  cn_scalar (v, 0) (v, k) = Ok (CN v 0 0) /\ cn_elem (v, 0) (v, k) = Raise ValueError /\ ~ possible (v, 0) (v, k) /\
  forall loc, ~ documented (v, 0) (v, k) loc (compute_complex loc (CN v 0 0)).
Proof.
  intros v k V K. assert (E1 : / 2 * (v + v) = v) by lra. assert (E2 : / 2 * (v - v) = 0) by lra. split; [|split; [|split]].
  - unfold cn_scalar, re, im. cbn [fst snd]. rewrite E1, E2. destruct (Req_EM_T 0 0); [|lra]. destruct (Rlt_dec 0 0); [lra|]. destruct (Rlt_dec v 0); [lra|].
    destruct (Rlt_dec 1 0); [lra|]. destruct (Rlt_dec 0 (-1)); [lra|]. reflexivity.
  - unfold cn_elem, re, im. cbn [fst snd]. rewrite E1, E2. destruct (Rlt_dec v 0); [lra|]. destruct (Rlt_dec 0 0); [lra|]. destruct (Req_EM_T 0 0); [|lra].
    destruct (Req_EM_T (/ 2 * k) 0); [lra|]. destruct (Rlt_dec 0 v); reflexivity.
  - unfold possible, re, im. cbn [fst snd]. intros (_ & _ & _ & H). nra.
  - intros loc (a & b & c & d & _ & _ & H2 & H3). unfold re, im in *. cbn [fst snd] in *. assert (c = 0) by nra. assert (d = 0) by nra. subst. lra.
Qed.
Example C69_case : possible (2, 0) (1, 1) /\ exists p, cn_elem (2, 0) (1, 1) = Ok p.
Proof. assert (H : possible (2, 0) (1, 1)) by (unfold possible, re, im; cbn [fst snd]; lra). split; [exact H|]. now apply C69_array_accepts. Qed.

(* ------------------------------------------------------------------- C70 *)
(* The floats of the variate are the real and imaginary parts in turn, X i at 2 i and Y i at
   2 i + 1. gamma = E[(X + iY) (X + iY)^H] and relation = E[(X + iY) (X + iY)^T], about the mean. *)
Definition gamma_of (v : nat -> nat -> R) (i j : nat) : cplx :=
  (v (2 * i)%nat (2 * j)%nat + v (2 * i + 1)%nat (2 * j + 1)%nat, v (2 * i + 1)%nat (2 * j)%nat - v (2 * i)%nat (2 * j + 1)%nat).
Definition relation_of (v : nat -> nat -> R) (i j : nat) : cplx :=
  (v (2 * i)%nat (2 * j)%nat - v (2 * i + 1)%nat (2 * j + 1)%nat, v (2 * i + 1)%nat (2 * j)%nat + v (2 * i)%nat (2 * j + 1)%nat).
Lemma perm_even dim i : mc_perm dim (2 * i) = i.
Proof. unfold mc_perm. rewrite Nat.even_mul. cbn [Nat.even orb]. rewrite Nat.mul_comm, Nat.div_mul by lia. lia. Qed.
Lemma perm_odd dim i : mc_perm dim (2 * i + 1) = (i + dim)%nat.
Proof.
  unfold mc_perm. rewrite Nat.even_add, Nat.even_mul. cbn [Nat.even orb Bool.eqb].
  replace ((2 * i + 1) / 2)%nat with i; [reflexivity|]. rewrite Nat.mul_comm, Nat.div_add_l by lia. cbn. lia.
Qed.
Lemma mc_parts dim g r i j : (i < dim)%nat -> (j < dim)%nat ->
  mc_cov dim g r (2 * i) (2 * j) = / 2 * (re (g i j) + re (r i j)) /\
  mc_cov dim g r (2 * i) (2 * j + 1) = - (/ 2 * (im (g i j) - im (r i j))) /\
  mc_cov dim g r (2 * i + 1) (2 * j) = / 2 * (im (g i j) + im (r i j)) /\
  mc_cov dim g r (2 * i + 1) (2 * j + 1) = / 2 * (re (g i j) - re (r i j)).
Proof.
  intros I J. unfold mc_cov. rewrite !perm_even, !perm_odd. unfold mc_temp. rewrite (proj2 (Nat.ltb_lt _ _) I), (proj2 (Nat.ltb_lt _ _) J).
  rewrite (proj2 (Nat.ltb_ge (i + dim) dim)), (proj2 (Nat.ltb_ge (j + dim) dim)) by lia. rewrite !Nat.add_sub. tauto.
Qed.
(* the covariance matrix handed on has the gamma and the relation asked for *)
Theorem C70_covariance : forall dim g r i j, (i < dim)%nat -> (j < dim)%nat ->
  gamma_of (mc_cov dim g r) i j = g i j /\ relation_of (mc_cov dim g r) i j = r i j.
Proof.
  intros dim g r i j I J. unfold gamma_of, relation_of. destruct (mc_parts dim g r i j I J) as (A & B & C & D). rewrite A, B, C, D.
  destruct (g i j) as [ga gb], (r i j) as [ra rb]. unfold re, im. cbn [fst snd]. split; f_equal; lra.
Qed.
(* it is the only one that has *)
Theorem C70_covariance_unique : forall dim g r v, (forall i j, (i < dim)%nat -> (j < dim)%nat -> gamma_of v i j = g i j /\ relation_of v i j = r i j) ->
  forall a b, (a < 2 * dim)%nat -> (b < 2 * dim)%nat -> v a b = mc_cov dim g r a b.
Proof.
  intros dim g r v H a b A B.
  assert (P : forall n, exists k, n = (2 * k)%nat \/ n = (2 * k + 1)%nat).
  { intros n. exists (n / 2)%nat. pose proof (Nat.div_mod n 2 ltac:(lia)). pose proof (Nat.mod_upper_bound n 2 ltac:(lia)). lia. }
  destruct (P a) as [i I], (P b) as [j J]. assert (Li : (i < dim)%nat) by lia. assert (Lj : (j < dim)%nat) by lia.
  destruct (mc_parts dim g r i j Li Lj) as (W & X & Y & Z). destruct (H i j Li Lj) as [G Q]. unfold gamma_of in G. unfold relation_of in Q.
  rewrite <- G, <- Q in W, X, Y, Z. unfold re, im in W, X, Y, Z. cbn [fst snd] in W, X, Y, Z.
  destruct I as [-> | ->], J as [-> | ->]; lra.
Qed.
(* it is symmetric exactly when gamma is Hermitian and relation symmetric *)
Theorem C70_symmetric : forall dim g r,
  (forall a b, (a < 2 * dim)%nat -> (b < 2 * dim)%nat -> mc_cov dim g r a b = mc_cov dim g r b a) <->
  (forall i j, (i < dim)%nat -> (j < dim)%nat -> re (g i j) = re (g j i) /\ im (g i j) = - im (g j i) /\ r i j = r j i).
Proof.
  intros dim g r. split.
  - intros S i j I J. destruct (mc_parts dim g r i j I J) as (W & X & Y & Z). destruct (mc_parts dim g r j i J I) as (W' & X' & Y' & Z').
    pose proof (S (2 * i)%nat (2 * j)%nat ltac:(lia) ltac:(lia)). pose proof (S (2 * i)%nat (2 * j + 1)%nat ltac:(lia) ltac:(lia)).
    pose proof (S (2 * i + 1)%nat (2 * j)%nat ltac:(lia) ltac:(lia)). pose proof (S (2 * i + 1)%nat (2 * j + 1)%nat ltac:(lia) ltac:(lia)).
    destruct (r i j) as [x y], (r j i) as [x' y']. unfold re, im in *. cbn [fst snd] in *. split; [lra|]. split; [lra|]. f_equal; lra.
  - intros H a b A B. assert (P : forall n, exists k, n = (2 * k)%nat \/ n = (2 * k + 1)%nat).
    { intros n. exists (n / 2)%nat. pose proof (Nat.div_mod n 2 ltac:(lia)). pose proof (Nat.mod_upper_bound n 2 ltac:(lia)). lia. }
    destruct (P a) as [i I], (P b) as [j J]. assert (Li : (i < dim)%nat) by lia. assert (Lj : (j < dim)%nat) by lia.
    destruct (mc_parts dim g r i j Li Lj) as (W & X & Y & Z). destruct (mc_parts dim g r j i Lj Li) as (W' & X' & Y' & Z').
    destruct (H i j Li Lj) as (E & F & G). rewrite <- G in *. destruct I as [-> | ->], J as [-> | ->]; lra.
Qed.
(* the views as floats and as complex numbers are each other's inverse *)
Theorem C70_views : forall z x, (forall i, as_complex (as_floats z) i = z i) /\ (forall a, as_floats (as_complex x) a = x a).
Proof.
  intros z x. split.
  - intros i. unfold as_complex, as_floats. rewrite Nat.even_add, Nat.even_mul. cbn [Nat.even orb Bool.eqb].
    replace ((2 * i + 1) / 2)%nat with i by (rewrite Nat.mul_comm, Nat.div_add_l by lia; cbn; lia).
    rewrite (Nat.mul_comm 2 i), Nat.div_mul by lia. now destruct (z i).
  - intros a. unfold as_floats, as_complex, re, im. cbn [fst snd]. pose proof (Nat.div_mod a 2 ltac:(lia)) as D.
    destruct (Nat.even a) eqn:E.
    + apply Nat.even_spec in E. destruct E as [k ->]. rewrite (Nat.mul_comm 2 k), Nat.div_mul by lia. f_equal; lia.
    + assert (O : Nat.odd a = true) by (unfold Nat.odd; now rewrite E). apply Nat.odd_spec in O. destruct O as [k ->].
      rewrite (Nat.mul_comm 2 k), Nat.div_add_l by lia. cbn [Nat.div Nat.divmod fst]. f_equal; lia.
Qed.
(* Matrices of a gamma or relation with one leading dimension, or more that are all 1 after the
   first, are used one by one in C order *)
Open Scope N_scope.
Theorem C70_selected_partial : forall lead i, Forall (fun d => d = 1) (tl lead) -> i < Shape.prod lead -> mc_select lead i = Ok i.
Proof.
  intros [|n rest] i F I; cbn [tl Shape.prod] in *; [unfold mc_select; f_equal; lia|]. unfold mc_select.
  assert (P : forall l, Forall (fun d => d = 1) l -> Shape.prod l = 1 /\ forallb (fun d => d =? 1) l = true).
  { induction l as [|x l IH]; intros G; [now split|]. inversion G as [|? ? X G']; subst. destruct (IH G') as [E1 E2]. cbn [Shape.prod forallb]. rewrite E1, E2. now split. }
  destruct (P rest F) as [E ->]. rewrite E, N.mul_1_r in I. rewrite (proj2 (N.ltb_lt _ _) I). reflexivity.
Qed.
(* with any other leading dimensions the call fails at the first matrix *)
Theorem C70_deeper_stacks_refuted : forall n rest, n <> 0 -> ~ Forall (fun d => d = 1) rest -> mc_select (n :: rest) 0 = Raise ValueError.
Proof.
  intros n rest Z F. unfold mc_select. destruct (0 <? n) eqn:E; [|lia]. destruct (forallb (fun d => d =? 1) rest) eqn:G; [|reflexivity].
  exfalso. apply F. apply Forall_forall. intros x X. rewrite forallb_forall in G. specialize (G x X). lia.
Qed.
Example C70_case : mc_select [2; 1] 1 = Ok 1 /\ mc_select [2; 3] 0 = Raise ValueError.
Proof. split; reflexivity. Qed.

(* ------------------------------------------------------------------- C71 *)
Lemma bto_refl a : bto a a.
Proof. exists [], a. split; [reflexivity|]. induction a; constructor; tauto. Qed.
(* Element k of a result of shape out is made from the elements of loc, gamma and relation that
   broadcast to it *)
Definition own_parameters (out ls vs rs : list N) (it : list N) : Prop :=
  forall (A B C : Type) (l : N -> A) (v : N -> B) (r : N -> C) k, k < Shape.prod out ->
  cn_array_elem it ls l k = l (pick ls (unravel out k)) /\ cn_array_elem it vs v k = v (pick vs (unravel out k)) /\ cn_array_elem it rs r k = r (pick rs (unravel out k)).
(* That element in words: [pick sh (unravel out k)] is an element of the parameter, and its index is
   the index of element k of the result along the dimensions the parameter has, or 0 where the
   parameter has size 1. [unravel] gives the index of an element in C order. *)
Lemma unravel_length sh : forall k, List.length (unravel sh k) = List.length sh.
Proof. induction sh as [|d sh IH]; intros k; [reflexivity|]. cbn [unravel List.length]. now rewrite IH. Qed.
Lemma unravel_in sh : forall k, k < Shape.prod sh -> Forall2 (fun i d => i < d) (unravel sh k) sh.
Proof.
  induction sh as [|d sh IH]; intros k K; cbn [unravel Shape.prod] in *; constructor.
  - apply N.div_lt_upper_bound; lia.
  - apply IH, N.mod_lt. intros E. rewrite E in K. lia.
Qed.
Lemma ravel_unravel sh : forall ix, Forall2 (fun i d => i < d \/ d = 1) ix sh ->
  ravel sh ix < Shape.prod sh /\ unravel sh (ravel sh ix) = map (fun p => if snd p =? 1 then 0 else fst p) (combine ix sh).
Proof.
  intros ix F. induction F as [|i d ix sh H F IH]; [split; reflexivity|]. cbn [ravel Shape.prod unravel combine map fst snd]. destruct IH as [L E].
  set (e := if d =? 1 then 0 else i) in *. assert (e < d) by (subst e; destruct (d =? 1) eqn:D; lia). set (P := Shape.prod sh) in *. set (r := ravel sh ix) in *.
  split; [nia|]. assert (P <> 0) by lia. rewrite (N.mul_comm e P), N.add_comm. f_equal.
  - rewrite N.mul_comm, N.div_add, N.div_small by assumption. reflexivity.
  - rewrite N.mul_comm, N.mod_add, N.mod_small by assumption. exact E.
Qed.
Lemma Forall2_skipn {A B} (Q : A -> B -> Prop) l pre r : Forall2 Q l (pre ++ r) -> Forall2 Q (skipn (List.length pre) l) r.
Proof. revert l. induction pre as [|p pre IH]; intros l F; [exact F|]. inversion F; subst. cbn [List.length skipn]. now apply IH. Qed.
Theorem C71_broadcast_element : forall sh out k, bto sh out -> k < Shape.prod out ->
  let own := skipn (List.length out - List.length sh) (unravel out k) in
  pick sh (unravel out k) < Shape.prod sh /\
  unravel sh (pick sh (unravel out k)) = map (fun p => if snd p =? 1 then 0 else fst p) (combine own sh).
Proof.
  intros sh out k (pre & b' & -> & F) K own. unfold pick. rewrite unravel_length. fold own.
  apply ravel_unravel. pose proof (Forall2_length _ _ _ F) as L.
  assert (N : (List.length (pre ++ b') - List.length sh = List.length pre)%nat) by (rewrite app_length; lia).
  pose proof (Forall2_skipn _ _ _ _ (unravel_in _ k K)) as U. subst own. rewrite N. revert U. clear - F. generalize (skipn (List.length pre) (unravel (pre ++ b') k)) as ix.
  induction F as [|x y sh b' H F IH]; intros ix U; inversion U; subst; constructor; [destruct H; subst; tauto|now apply IH].
Qed.
(* and [unravel] is the C order: different elements have different indices, in increasing order *)
Theorem C71_index_is_c_order : forall d sh k, k < Shape.prod (d :: sh) ->
  exists i r, unravel (d :: sh) k = i :: unravel sh r /\ k = i * Shape.prod sh + r /\ i < d /\ r < Shape.prod sh.
Proof.
  intros d sh k K. cbn [Shape.prod] in K. exists (k / Shape.prod sh), (k mod Shape.prod sh). assert (Shape.prod sh <> 0) by (intros E; rewrite E in K; lia).
  split; [reflexivity|]. split; [rewrite N.mul_comm; now apply N.div_mod|]. split; [apply N.div_lt_upper_bound; lia|now apply N.mod_lt].
Qed.
Example C71_element_case : bto [3; 1] [2; 3; 2] /\ 9 < Shape.prod [2; 3; 2] /\ unravel [2; 3; 2] 9 = [1; 1; 1] /\ pick [3; 1] (unravel [2; 3; 2] 9) = 1.
Proof. split; [exists [2], [3; 2]; split; [reflexivity|repeat constructor; lia]|]. repeat split. Qed.
(* without a size: the result has the broadcast shape, and every element its own parameters *)
Theorem C71_no_size : forall ls gs rs out it, cn_shapes ls gs rs None = Ok (out, it) ->
  exists vs, np_broadcast gs rs = Some vs /\ np_broadcast ls vs = Some out /\ own_parameters out ls vs rs it.
Proof.
  intros ls gs rs out it. unfold cn_shapes. destruct (np_broadcast gs rs) as [vs|] eqn:V; [|discriminate]. destruct (_ <? _); [discriminate|].
  destruct (np_broadcast ls vs) as [ps|] eqn:P; [|discriminate]. pose proof (np_broadcast_to _ _ _ V) as [_ R]. pose proof (np_broadcast_to _ _ _ P) as [_ S].
  assert (T : bto rs ps) by (eapply bto_trans; eassumption). rewrite np_broadcast_comm, (bto_broadcast _ _ T).
  rewrite (bto_broadcast ps ps) by (apply bto_refl). intros [= <- <-]. exists vs. split; [reflexivity|]. split; [exact P|].
  intros A B C l v r k K. repeat split.
Qed.
(* with a size the parameters broadcast to *)
Theorem C71_size_partial : forall ls gs rs vs ps sz out it, np_broadcast gs rs = Some vs -> np_broadcast ls vs = Some ps -> bto ps sz ->
  cn_shapes ls gs rs (Some sz) = Ok (out, it) -> out = sz /\ own_parameters out ls vs rs it.
Proof.
  intros ls gs rs vs ps sz out it V P F. unfold cn_shapes. rewrite V. destruct (_ <? _); [discriminate|]. rewrite P.
  pose proof (np_broadcast_to _ _ _ V) as [_ R]. pose proof (np_broadcast_to _ _ _ P) as [_ S].
  assert (T : bto rs ps) by (eapply bto_trans; eassumption). rewrite np_broadcast_comm, (bto_broadcast _ _ T).
  rewrite np_broadcast_comm, (bto_broadcast _ _ F). intros [= <- <-]. split; [reflexivity|]. intros A B C l v r k K. repeat split.
Qed.
(* parameters that broadcast are accepted if relation is not broadcast itself *)
Theorem C71_accepted_partial : forall ls gs rs vs ps, np_broadcast gs rs = Some vs -> np_broadcast ls vs = Some ps -> Shape.prod vs <= Shape.prod rs ->
  cn_shapes ls gs rs None = Ok (ps, ps) /\ forall sz, bto ps sz -> cn_shapes ls gs rs (Some sz) = Ok (sz, sz).
Proof.
  intros ls gs rs vs ps V P L. unfold cn_shapes. rewrite V. destruct (_ <? _) eqn:E; [lia|]. rewrite P.
  pose proof (np_broadcast_to _ _ _ V) as [_ R]. pose proof (np_broadcast_to _ _ _ P) as [_ S].
  assert (T : bto rs ps) by (eapply bto_trans; eassumption). rewrite (np_broadcast_comm ps rs), (bto_broadcast _ _ T).
  rewrite (bto_broadcast ps ps) by (apply bto_refl). split; [reflexivity|]. intros sz F. now rewrite np_broadcast_comm, (bto_broadcast _ _ F).
Qed.
(* the default scalar relation never goes with an array gamma of more than one element *)
Theorem C71_array_gamma_refuted : forall ls gs size, 1 < Shape.prod gs -> cn_shapes ls gs [] size = Raise IndexError.
Proof.
  intros ls gs size G. unfold cn_shapes. rewrite np_broadcast_comm, (bto_broadcast [] gs).
  - cbn [Shape.prod]. now rewrite (proj2 (N.ltb_lt _ _) G).
  - exists gs, []. rewrite app_nil_r. split; [reflexivity|constructor].
Qed.
(* and a size that the parameters do not broadcast to is accepted: of the result of shape (3, 1)
   element 1 has the mean loc[1], and elements 0 and 2 the mean loc[0] *)
Theorem C71_size_not_checked_refuted : exists ls sz it, ~ bto ls sz /\ cn_shapes ls [] [] (Some sz) = Ok (sz, it) /\
  forall A (loc : N -> A), cn_array_elem it ls loc 0 = loc 0 /\ cn_array_elem it ls loc 1 = loc 1 /\ cn_array_elem it ls loc 2 = loc 0.
Proof.
  exists [2], [3; 1], [3; 2]. split; [|split; [reflexivity|intros A loc; repeat split; reflexivity]].
  intros B. apply bto_broadcast in B. vm_compute in B. discriminate B.
Qed.
(* an empty loc with a size of one element: the iterator has no position, the loop reads one *)
Theorem C71_empty_loc_refuted : exists out it, cn_shapes [0] [] [] (Some [1]) = Ok (out, it) /\ Shape.prod it < Shape.prod out.
Proof. exists [1], [0]. split; reflexivity. Qed.
(* constant parameters give the numbers of the scalar version: array and scalar calls read the
   normals in the same order *)
Theorem C71_constant_parameters : forall it ls vs loc p normal k, cn_fill it ls vs (fun _ => loc) (fun _ => p) normal k = cn_fill_scalar loc p normal k.
Proof. reflexivity. Qed.
(* a prefix: a longer result starts with the shorter one, element k using normals 2 k and 2 k + 1 *)
Theorem C71_normals_used : forall it ls vs loc par normal normal' k,
  normal (2 * k) = normal' (2 * k) -> normal (2 * k + 1) = normal' (2 * k + 1) -> cn_fill it ls vs loc par normal k = cn_fill it ls vs loc par normal' k.
Proof. intros it ls vs loc par normal normal' k A B. unfold cn_fill. now rewrite A, B. Qed.
Example C71_case : cn_shapes [2; 1] [3] [3] None = Ok ([2; 3], [2; 3]) /\ cn_shapes [] [3] [] None = Raise IndexError.
Proof. split; reflexivity. Qed.

Print Assumptions C69_array_accepts.
Print Assumptions C69_array_covariance.
Print Assumptions C69_scalar_as_array.
Print Assumptions C69_scalar_covariance_partial.
Print Assumptions C69_scalar_degenerate_refuted.
Print Assumptions C70_covariance.
Print Assumptions C70_covariance_unique.
Print Assumptions C70_symmetric.
Print Assumptions C70_views.
Print Assumptions C70_selected_partial.
Print Assumptions C70_deeper_stacks_refuted.
Print Assumptions C71_broadcast_element.
Print Assumptions C71_index_is_c_order.
Print Assumptions C71_no_size.
Print Assumptions C71_size_partial.
Print Assumptions C71_accepted_partial.
Print Assumptions C71_array_gamma_refuted.
Print Assumptions C71_size_not_checked_refuted.
Print Assumptions C71_empty_loc_refuted.
Print Assumptions C71_constant_parameters.
Print Assumptions C71_normals_used.
