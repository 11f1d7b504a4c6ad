(* Philox and ThreeFry objects: streams, advance, jumps *)
From Verif Require Import Word Arr Common MultiWord Ctr Blocks CtrPy Py.
From Coq Require Import ZifyBool ZifyNat ZifyN.
Open Scope N_scope.

(* log2 of number: N/2 for N = 2, 4 (the C code uses the same expression) *)
Definition lgn (n : N) : N := n / 2.
Lemma variant_lg n w : In (n, w) variants -> 2 ^ lgn n = n /\ 1 <= lgn n <= 2 /\ 8 <= w /\ (w = 32 \/ w = 64) /\ (n = 2 \/ n = 4).
Proof.
  intros H. cbn in H. destruct H as [[= <- <-]|[[= <- <-]|[[= <- <-]|[[= <- <-]|[]]]]]; vm_compute; intuition discriminate.
Qed.

(* block lengths, for any key *)
Lemma ph_R_length round bump k : (forall key c, length c = k -> length (round key c) = k) ->
  forall r key c, length c = k -> length (ph_R round bump r key c) = k.
Proof. intros H. induction r as [|r IH]; intros key c Hc; cbn [ph_R]; auto. Qed.
Lemma ph2_round_length w m key c : length c = 2%nat -> length (ph2_round w m key c) = 2%nat.
Proof. destruct c as [|a [|b [|]]]; try discriminate. destruct key as [|? [|]]; reflexivity. Qed.
Lemma ph4_round_length w m m' key c : length c = 4%nat -> length (ph4_round w m m' key c) = 4%nat.
Proof. destruct c as [|a [|b [|x [|y [|]]]]]; try discriminate. destruct key as [|? [|? [|]]]; reflexivity. Qed.
Lemma fold_length k (f : list N -> nat -> list N) l : (forall X q, length X = k -> length (f X q) = k) ->
  forall X, length X = k -> length (fold_left f l X) = k.
Proof. intros H. induction l as [|q l IH]; cbn [fold_left]; auto. Qed.
Lemma tf2_round_length w r X : length X = 2%nat -> length (tf2_round w r X) = 2%nat.
Proof. destruct X as [|a [|b [|]]]; try discriminate. reflexivity. Qed.
Lemma tf2_inject_length w ks r X : length X = 2%nat -> length (tf2_inject w ks r X) = 2%nat.
Proof. destruct X as [|a [|b [|]]]; try discriminate. reflexivity. Qed.
Lemma tf4_even_length w r X : length X = 4%nat -> length (tf4_even w r X) = 4%nat.
Proof. destruct X as [|a [|b [|x [|y [|]]]]]; try discriminate. reflexivity. Qed.
Lemma tf4_odd_length w r X : length X = 4%nat -> length (tf4_odd w r X) = 4%nat.
Proof. destruct X as [|a [|b [|x [|y [|]]]]]; try discriminate. reflexivity. Qed.
Lemma tf4_inject_length w ks r X : length X = 4%nat -> length (tf4_inject w ks r X) = 4%nat.
Proof. destruct X as [|a [|b [|x [|y [|]]]]]; try discriminate. reflexivity. Qed.
Lemma blockfn_length c n w : In (n, w) variants -> forall key ctr, length ctr = N.to_nat (2 ^ lgn n) -> length (blockfn c (n, w) key ctr) = N.to_nat (2 ^ lgn n).
Proof.
  intros H. rewrite (proj1 (variant_lg n w H)). intros key ctr Hc.
  cbn in H; destruct H as [[= <- <-]|[[= <- <-]|[[= <- <-]|[[= <- <-]|[]]]]]; destruct c; cbn [blockfn];
    change (N.to_nat 4) with 4%nat in *; change (N.to_nat 2) with 2%nat in *.
  - apply (ph_R_length _ _ 4); [intros; now apply ph4_round_length|exact Hc].
  - apply (fold_length 4); [intros; unfold tf4_four; auto 10 using tf4_even_length, tf4_odd_length, tf4_inject_length|now apply tf4_inject_length].
  - apply (ph_R_length _ _ 2); [intros; now apply ph2_round_length|exact Hc].
  - apply (fold_length 2); [intros; unfold tf2_four; auto 10 using tf2_round_length, tf2_inject_length|now apply tf2_inject_length].
  - apply (ph_R_length _ _ 4); [intros; now apply ph4_round_length|exact Hc].
  - apply (fold_length 4); [intros; unfold tf4_four; auto 10 using tf4_even_length, tf4_odd_length, tf4_inject_length|now apply tf4_inject_length].
  - apply (ph_R_length _ _ 2); [intros; now apply ph2_round_length|exact Hc].
  - apply (fold_length 2); [intros; unfold tf2_four; auto 10 using tf2_round_length, tf2_inject_length|now apply tf2_inject_length].
Qed.

Section Variant.
  Variables (c : cls) (n w : N).
  Hypothesis Hv : In (n, w) variants.
  Notation blk := (blockfn c (n, w)).

  (* k draws of next_raw / next_uint64 (64-bit), next_uint32 (32-bit variants) *)
  Definition vdraws (k : N) (s : cst) : option (cst * list N) := cdraws w (lgn n) blk (N.to_nat k) s.
  Definition vnext := cnext w (lgn n) blk.
  Definition vadvance := pyadvance w (lgn n) blk.
  Definition vjump := pyjump w (lgn n) blk.
  Definition vinv := cinv w (lgn n) blk.
  Definition vpos := cpos w (lgn n).
  (* the infinite output sequence for a key: value i is word i mod n of the
     block at counter i / n *)
  Definition vstream (key : list N) (i : N) : N := nth (N.to_nat (i mod n)) (blk key (to_words w (N.to_nat n) (i / n))) 0.
  Definition vcycle : N := n * 2 ^ (w * n).

  Lemma vn : 2 ^ lgn n = n. Proof. exact (proj1 (variant_lg n w Hv)). Qed.
  Lemma vlg : 1 <= lgn n <= 2. Proof. exact (proj1 (proj2 (variant_lg n w Hv))). Qed.
  Lemma vw : 8 <= w. Proof. exact (proj1 (proj2 (proj2 (variant_lg n w Hv)))). Qed.
  Lemma vblk : forall k c, length c = N.to_nat (2 ^ lgn n) -> length (blk k c) = N.to_nat (2 ^ lgn n).
  Proof. exact (blockfn_length c n w Hv). Qed.
  Lemma vstream_eq key i : cstream w (lgn n) blk key i = vstream key i.
  Proof. unfold cstream, vstream. now rewrite vn. Qed.
  Lemma vcycle_eq : cycle w (lgn n) = vcycle.
  Proof. unfold cycle, vcycle. now rewrite vn. Qed.
  Lemma vcycle_nz : vcycle <> 0.
  Proof. rewrite <- vcycle_eq. exact (cycle_nz w (lgn n) blk vlg vw vblk). Qed.

  Theorem vdraws_spec k s : vinv s -> exists s', 
    vdraws k s = Some (s', map (fun i => vstream (c_key s) (vpos s + N.of_nat i)) (seq 0 (N.to_nat k)))
    /\ vinv s' /\ c_key s' = c_key s /\ vpos s' mod vcycle = (vpos s + k) mod vcycle /\ c_has s' = c_has s /\ c_ui s' = c_ui s.
  Proof.
    intros Hi. destruct (cdraws_spec w (lgn n) blk vlg vw vblk (N.to_nat k) s Hi) as (s' & E & I & K & P & H & U).
    exists s'. rewrite N2Nat.id, vcycle_eq in P. unfold vdraws. rewrite E. repeat (split; [first [assumption | idtac]|]); try assumption.
    f_equal. f_equal. apply map_ext. intros i. apply vstream_eq.
  Qed.
  (* same key, same position: the same values for ever *)
  Theorem v_indist s t k : vinv s -> vinv t -> c_key s = c_key t -> vpos s mod vcycle = vpos t mod vcycle ->
    option_map snd (vdraws k s) = option_map snd (vdraws k t).
  Proof.
    intros Hs Ht K P. rewrite <- vcycle_eq in P.
    destruct (same_pos_same_stream w (lgn n) blk vlg vw vblk s t (N.to_nat k) Hs Ht K P) as (s' & t' & vs & E & F).
    unfold vdraws. now rewrite E, F.
  Qed.

  (* advance(delta, counter=False) for 0 <= delta < 2^(n*w) is delta draws *)
  Theorem vadvance_ok delta s : vinv s -> (c_pos s <= Z.of_N n)%Z -> delta < 2 ^ (w * n) ->
    exists s1 vs, vdraws delta s = Some (s1, vs) /\
    vinv (vadvance (Z.of_N delta) false s) /\
    forall k, option_map snd (vdraws k (vadvance (Z.of_N delta) false s)) = option_map snd (vdraws k s1).
  Proof.
    intros Hi Hp Hd. destruct (vdraws_spec delta s Hi) as (s1 & E & I1 & K1 & P1 & _).
    exists s1. eexists. split; [exact E|].
    assert (I2 : vinv (vadvance (Z.of_N delta) false s)) by (apply (pyadvance_inv w (lgn n) blk vlg vw vblk); exact Hi).
    split; [exact I2|]. intros k. apply v_indist; try assumption.
    - rewrite K1. apply pyadvance_key.
    - rewrite P1. rewrite <- vcycle_eq.
      pose proof (pyadvance_ok w (lgn n) blk vlg vw vblk (Z.of_N delta) s Hi) as H. rewrite vn, N2Z.id in H.
      apply H; [exact Hp|]. split; [apply N2Z.is_nonneg|].
      change 2%Z with (Z.of_N 2). rewrite <- N2Z.inj_pow. apply N2Z.inj_lt. exact Hd.
  Qed.
  (* where it actually goes, for every integer delta *)
  Theorem vadvance_pos delta s : vinv s -> (c_pos s <= Z.of_N n)%Z ->
    vpos (vadvance delta false s) mod vcycle = (vpos s + Z.to_N (delta mod Z.of_N vcycle) mod 2 ^ (w * n)) mod vcycle.
  Proof.
    intros Hi Hp. pose proof (pyadvance_pos w (lgn n) blk vlg vw vblk delta s Hi) as H. rewrite vn, vcycle_eq in H. exact (H Hp).
  Qed.
  Theorem vadvance_negative_wrong delta s : vinv s -> (c_pos s <= Z.of_N n)%Z -> (- 2 ^ Z.of_N (w * n) <= delta < 0)%Z ->
    Z.of_N (vpos (vadvance delta false s) mod vcycle) <> ((Z.of_N (vpos s) + delta) mod Z.of_N vcycle)%Z.
  Proof.
    intros Hi Hp. pose proof (pyadvance_negative_wrong w (lgn n) blk vlg vw vblk delta s Hi) as H. rewrite vn, vcycle_eq in H. exact (H Hp).
  Qed.
  (* counter=True *)
  Theorem vadvance_counter_ok delta s : vinv s -> 0 < delta -> delta < 2 ^ (w * n - lgn n) ->
    lv w (c_ctr (vadvance (Z.of_N delta) true s)) = (lv w (c_ctr s) + delta) mod 2 ^ (w * n)
    /\ vpos (vadvance (Z.of_N delta) true s) = n * (lv w (c_ctr (vadvance (Z.of_N delta) true s)) + 1).
  Proof.
    intros Hi H0 Hd. pose proof (pyadvance_counter_ok w (lgn n) blk vlg vw vblk (Z.of_N delta) s Hi) as H. rewrite vn, N2Z.id in H.
    apply H. split; [lia|]. change 2%Z with (Z.of_N 2). rewrite <- N2Z.inj_pow. apply N2Z.inj_lt. exact Hd.
  Qed.
  Theorem vjump_spec k s : vinv s -> 0 < k -> k < 2 ^ (w * n / 2 - lgn n) ->
    lv w (c_ctr (vjump (Z.of_N k) s)) = (lv w (c_ctr s) + k * 2 ^ (w * n / 2)) mod 2 ^ (w * n)
    /\ vpos (vjump (Z.of_N k) s) = n * (lv w (c_ctr (vjump (Z.of_N k) s)) + 1).
  Proof.
    intros Hi H0 Hk. pose proof (pyjump_spec w (lgn n) blk vlg vw vblk (Z.of_N k) s Hi) as H. rewrite vn, N2Z.id in H.
    apply H. split; [lia|]. change 2%Z with (Z.of_N 2). rewrite <- N2Z.inj_pow. apply N2Z.inj_lt. exact Hk.
  Qed.
  Lemma vadvance_inv delta b s : vinv s -> vinv (vadvance delta b s).
  Proof. apply (pyadvance_inv w (lgn n) blk vlg vw vblk). Qed.
  Lemma vjump_inv k s : vinv s -> vinv (vjump k s).
  Proof. apply (pyadvance_inv w (lgn n) blk vlg vw vblk). Qed.

  (* freshly seeded *)
  Lemma vseed_inv key counter : counter < 2 ^ (w * n) ->
    let s := o_st (seed_key c (n, w) key counter) in
    vinv s /\ vpos s = n * (counter + 1) /\ c_key s = to_words w (Z.to_nat (key_words c (Z.of_N n))) key /\ c_has s = false.
  Proof.
    intros Hc. cbn [seed_key o_st]. pose proof (variant_lg n w Hv) as (E & _ & _ & _ & N4).
    refine (conj _ (conj _ (conj eq_refl eq_refl))).
    - unfold vinv, cinv. cbn [c_ctr c_key c_pos c_buf]. rewrite E.
      refine (conj (to_words_wf _ _ _) (conj (to_words_length _ _ _) (conj eq_refl (conj _ _)))); [lia|].
      intros i Hi. exfalso. clear - Hi N4. lia.
    - unfold vpos, cpos. cbn [c_ctr c_pos]. rewrite E, to_words_val, N2Nat.id, N.mod_small by exact Hc.
      rewrite (N.min_r _ n) by (clear - N4; lia). clear. nia.
  Qed.
  (* jumps compose exactly: equal states, not only equal streams *)
  Theorem vjump_compose j k s : vinv s -> 0 < j -> 0 < k -> j + k < 2 ^ (w * n / 2 - lgn n) ->
    vjump (Z.of_N k) (vjump (Z.of_N j) s) = vjump (Z.of_N (j + k)) s.
  Proof.
    intros Hi H0 H1 Hjk.
    assert (Lj : j < 2 ^ (w * n / 2 - lgn n)) by (revert Hjk; generalize (2 ^ (w * n / 2 - lgn n)); clear; lia).
    assert (Lk : k < 2 ^ (w * n / 2 - lgn n)) by (revert Hjk; generalize (2 ^ (w * n / 2 - lgn n)); clear; lia).
    destruct (vjump_spec j s Hi H0 Lj) as [Ej _].
    pose proof (vjump_inv (Z.of_N j) s Hi) as Ij.
    destruct (vjump_spec k _ Ij H1 Lk) as [Ek _].
    pose proof (vjump_inv (Z.of_N k) _ Ij) as Ik.
    destruct (vjump_spec (j + k) s Hi) as [Es _]; [clear - H0; lia|exact Hjk|].
    pose proof (vjump_inv (Z.of_N (j + k)) s Hi) as Is.
    assert (C : c_ctr (vjump (Z.of_N k) (vjump (Z.of_N j) s)) = c_ctr (vjump (Z.of_N (j + k)) s)).
    { destruct Ik as (W1 & L1 & _), Is as (W2 & L2 & _). apply (lv_inj w); try assumption; [congruence|].
      rewrite Ek, Ej, Es. rewrite mod_add_l by apply pow2_nz. f_equal. clear. lia. }
    assert (R : forall i t, (i =? 0)%Z = false -> vjump i t = Cst (c_ctr (vjump i t)) (c_key t) 4 [0;0;0;0] false 0).
    { intros i t Ht. unfold vjump, pyjump, pyadvance.
      destruct (Z.eqb_spec (i * 2 ^ Z.of_N (w * 2 ^ lgn n / 2)) 0) as [E|_]; [|reflexivity].
      pose proof (Zpow2_pos (w * 2 ^ lgn n / 2)) as Q. clear - Ht E Q. nia. }
    rewrite (R (Z.of_N k)) by (clear - H1; lia). rewrite (R (Z.of_N (j + k)) s) by (clear - H1; lia). rewrite C. f_equal.
    rewrite (R (Z.of_N j)) by (clear - H0; lia). reflexivity.
  Qed.
  (* a draw is injective on (key, position), the observable part of the state *)
  Theorem vnext_no_merge s t s' t' v u : vinv s -> vinv t -> vnext s = Some (s', v) -> vnext t = Some (t', u) ->
    c_key s' = c_key t' -> vpos s' mod vcycle = vpos t' mod vcycle -> c_key s = c_key t /\ vpos s mod vcycle = vpos t mod vcycle.
  Proof.
    intros Hs Ht Es Et K P.
    destruct (cnext_spec w (lgn n) blk vlg vw vblk s Hs) as (s1 & E1 & _ & K1 & P1 & _).
    destruct (cnext_spec w (lgn n) blk vlg vw vblk t Ht) as (t1 & E2 & _ & K2 & P2 & _).
    unfold vnext in *. rewrite Es in E1. rewrite Et in E2. injection E1 as -> _. injection E2 as -> _.
    split; [congruence|]. rewrite vcycle_eq in P1, P2. fold vpos in P1, P2. rewrite P1, P2 in P.
    pose proof vcycle_nz as Nz. clear - P Nz.
    assert (X : forall a, (a + 1 + (vcycle - 1)) mod vcycle = a mod vcycle).
    { intros a. replace (a + 1 + (vcycle - 1)) with (a + 1 * vcycle) by lia. now apply N.mod_add. }
    rewrite <- (X (vpos s)), <- (X (vpos t)), <- (mod_add_l (vpos s + 1)), P, mod_add_l by exact Nz. reflexivity.
  Qed.
End Variant.

(* number=2: a fresh generator has buffer_pos = 4, and advancing it by an even
   number of draws with counter=False ends up two draws short *)
Theorem fresh2_even_short c w s d : In (2, w) variants -> vinv c 2 w s -> c_pos s = 4%Z -> d <> 0 -> d mod 2 = 0 -> d < 2 ^ (w * 2) ->
  (vpos 2 w (vadvance c 2 w (Z.of_N d) false s) + 2) mod vcycle 2 w = (vpos 2 w s + d) mod vcycle 2 w.
Proof.
  intros Hv Hi Hp Hd0 He Hd. unfold vadvance, pyadvance.
  destruct (Z.eqb_spec (Z.of_N d) 0) as [Z|_]; [lia|].
  pose proof (vlg 2 w Hv) as L. pose proof (vw 2 w Hv) as Wd. pose proof (vblk c 2 w Hv) as Bl.
  rewrite (pyadv_step w (lgn 2) (blockfn c (2, w)) L Wd Bl). rewrite (vcycle_eq 2 w Hv).
  assert (Dm : Z.to_N (Z.of_N d mod Z.of_N (vcycle 2 w)) = d).
  { rewrite <- N2Z.inj_mod, N2Z.id. apply N.mod_small. unfold vcycle. pose proof (pow2_pos (w * 2)). nia. }
  rewrite Dm. change (2 ^ lgn 2) with 2 in *. cbn [negb].
  destruct (cadvance_ctr w (lgn 2) (blockfn c (2, w)) L Wd Bl s d true false Hi) as (Ev & Ep & _).
  - change (2 ^ lgn 2) with 2. rewrite He, Hp. reflexivity.
  - change (2 ^ lgn 2) with 2 in *. unfold astep in *.
    unfold vpos, cpos. change (2 ^ lgn 2) with 2 in *. cbn [c_ctr c_pos]. rewrite Ev, Ep. cbn [N.b2n].
    rewrite He, Hp. change (Z.to_N 4) with 4. change ((4 + 0) mod 2) with 0. change (N.min (Z.to_N (Z.of_N 0)) 2) with 0.
    change (N.min 4 2) with 2. rewrite !N.add_0_r. rewrite (N.mod_small d) by exact Hd.
    unfold vcycle. rewrite <- N.mul_mod_distr_l by (try apply pow2_nz; discriminate).
    rewrite mod_add_l by (pose proof (pow2_pos (w * 2)); lia). f_equal.
    pose proof (N.div_mod d 2 ltac:(discriminate)) as D. rewrite He in D. clear - D. lia.
Qed.

(* every seeded object is well formed *)
Lemma seed_ok c n w key counter : In (n, w) variants -> o_ok c (seed_key c (n, w) key counter).
Proof.
  intros Hv. exists n, w. cbn [seed_key o_n o_w o_fn o_st c_ctr c_key c_buf c_pos c_ui].
  refine (conj Hv (conj eq_refl (conj eq_refl (conj eq_refl (conj _ (conj _ (conj _ (conj _ (conj _ _))))))))).
  - split; [apply to_words_length|apply to_words_wf].
  - split; [apply to_words_length|apply to_words_wf].
  - split; [reflexivity|]. repeat constructor; apply pow2_pos.
  - cbn in Hv. destruct Hv as [[= <- <-]|[[= <- <-]|[[= <- <-]|[[= <- <-]|[]]]]]; reflexivity.
  - split; [discriminate|reflexivity].
  - apply pow2_pos.
Qed.
