(* C85: what the arguments w, k, numpy_seed and mode of SFC64 do, at construction and at every later seed() *)
From Verif Require Import Word Buffer32 Py Sfc SfcFacts PcgInit SfcPy PropSfc.
From Coq Require Import String ZifyBool ZifyNat ZifyN.
Open Scope N_scope.
Ltac Zify.zify_post_hook ::= idtac.
Notation length := List.length.

Section P.
  Context (Sq : Type) (sw : Sq -> N -> list N) (cyf : bool).
  Notation new := (so_new Sq sw cyf). Notation seed := (so_seed Sq sw cyf).
  Notation word q n i := (nth i (sw q n) 0).
  (* the state of a generator whose three words are those of the seed sequence asked for n words *)
  Definition started (q : Sq) (n w k : N) : sfcpy := Buf (sfc_seed (word q n 0%nat) (word q n 1%nat) (word q n 2%nat) w k) false 0.

  (* the eight ways to call it, for integers in range: what is not given is the next word of the seed
     sequence, made odd for k *)
  Theorem C85_integers : forall q w k, wf 64 w -> wf 64 k ->
    let wz := WInt (Z.of_N w) in let kz := WInt (Z.of_N k) in
    new false MAbsent q wz kz = Ok (SO q false wz kz (started q 3 w k)) /\
    new false MAbsent q WNone kz = Ok (SO q false WNone kz (started q 4 (word q 4 3%nat) k)) /\
    new false MAbsent q wz WNone = Ok (SO q false wz WNone (started q 4 w (N.lor (word q 4 3%nat) 1))) /\
    new false MAbsent q WNone WNone = Ok (SO q false WNone WNone (started q 5 (word q 5 3%nat) (N.lor (word q 5 4%nat) 1))).
  Proof.
    intros q w k W K wz kz. unfold so_new. cbn [init_mode obind]. unfold so_seed, bind, modify, read, lift, so_from_seq, wz, kz. cbn [so_numpy so_w so_k so_seq so_st wk_is_none wk_uint].
    rewrite !to_uint_ok by assumption. repeat split.
  Qed.
  (* the numpy-compatible mode takes w and k equal to 1 only, and is then the default *)
  Theorem C85_numpy : forall m q w k, init_mode modes_two true m = Ok true ->
    ((exists o, new true m q w k = Ok o) -> wk_not_one w = false /\ wk_not_one k = false) /\
    (wk_not_one w = true \/ wk_not_one k = true -> new true m q w k = Raise ValueError) /\
    (exists o o', new true m q (WInt 1) (WInt 1) = Ok o /\ new false MAbsent q (WInt 1) (WInt 1) = Ok o' /\ so_st o = so_st o' /\ so_st o = started q 3 1 1).
  Proof.
    intros m q w k M. unfold so_new. rewrite M. cbn [init_mode obind]. unfold so_seed, bind, modify, read, lift, so_from_seq_numpy. cbn [so_numpy so_w so_k so_seq so_st].
    split; [|split].
    - intros [o E]. destruct (wk_not_one w), (wk_not_one k); cbn [orb] in E; try discriminate E; now split.
    - intros [H|H]; rewrite H; [reflexivity|]. now rewrite orb_true_r.
    - eexists _, _. split; [reflexivity|]. split; [reflexivity|]. split; reflexivity.
  Qed.
  (* ... so nothing but 1, not even w and k left out *)
  Theorem C85_numpy_given : forall m q w k, init_mode modes_two true m = Ok true -> w = WNone \/ w = WOther \/ k = WNone \/ k = WOther ->
    new true m q w k = Raise ValueError.
  Proof. intros m q w k M H. apply (proj1 (proj2 (C85_numpy m q w k M))). destruct H as [->|[->|[->| ->]]]; [left; reflexivity | left; reflexivity | right; reflexivity | right; reflexivity]. Qed.
  (* a float is cut off to an integer, or refused, as the version of Cython decides; the whole range of uint64_t is taken *)
  Theorem C85_floats : forall q n d k, (0 <= n)%Z -> (n / Zpos d < 2 ^ 64)%Z -> wf 64 k ->
    new false MAbsent q (WFloat n d) (WInt (Z.of_N k)) =
    if cyf then Ok (SO q false (WFloat n d) (WInt (Z.of_N k)) (started q 3 (Z.to_N (n / Zpos d)) k)) else Raise TypeError.
  Proof.
    intros q n d k Hn H K. unfold so_new. cbn [init_mode obind]. unfold so_seed, bind, modify, read, lift, so_from_seq. cbn [so_numpy so_w so_k so_seq so_st wk_is_none wk_uint].
    destruct cyf; [|reflexivity]. rewrite Z.quot_div_nonneg by lia. pose proof (Z.div_pos n (Zpos d) Hn ltac:(lia)) as P. set (z := (n / Zpos d)%Z) in *. clearbody z.
    replace z with (Z.of_N (Z.to_N z)) at 1 by lia. rewrite !to_uint_ok; [reflexivity | exact K |]. unfold wf. change (2 ^ 64) with (Z.to_N (2 ^ 64)). lia.
  Qed.
  (* integers outside uint64 and other objects are rejected, at construction *)
  Theorem C85_rejected : forall q w k z, (z < 0 \/ 2 ^ 64 <= z)%Z ->
    new false MAbsent q (WInt z) k = Raise OverflowError /\ new false MAbsent q WOther k = Raise TypeError /\
    (wf 64 w -> new false MAbsent q (WInt (Z.of_N w)) (WInt z) = Raise OverflowError /\ new false MAbsent q (WInt (Z.of_N w)) WOther = Raise TypeError).
  Proof.
    intros q w k z H. unfold so_new. cbn [init_mode obind]. unfold so_seed, bind, modify, read, lift, so_from_seq. cbn [so_numpy so_w so_k so_seq so_st wk_is_none wk_uint].
    assert (E : to_uint 64 (PInt z) = Raise OverflowError) by (unfold to_uint; change (Z.of_N 64) with 64%Z; now replace ((0 <=? z) && (z <? 2 ^ 64))%Z with false by lia).
    rewrite E. cbn [obind]. split; [reflexivity|]. split; [reflexivity|]. intros W. rewrite to_uint_ok by exact W. cbn [obind]. split; reflexivity.
  Qed.
  (* seed(): the new state does not depend on the old one, only on the seed and the arguments the object
     was made with; construction is seed() *)
  Theorem C85_reseed : forall ns m q0 q w k o, new ns m q0 w k = Ok o -> forall s,
    new ns m q w k = match seed q (SO q0 (so_numpy o) w k s) with (o', Ok _) => Ok o' | (_, Raise e) => Raise e end.
  Proof.
    intros ns m q0 q w k o. unfold so_new. destruct (init_mode modes_two ns m) as [b|e]; cbn [obind]; [|discriminate]. unfold so_seed, bind, modify, read, lift. cbn [so_numpy so_w so_k so_seq so_st].
    intros E s. assert (N : so_numpy o = b) by (destruct (if b then _ else _); [injection E as <-; reflexivity|discriminate]). rewrite N. clear E N.
    unfold so_from_seq_numpy, so_from_seq. cbn [so_numpy so_w so_k so_seq so_st]. destruct (if b then _ else _); reflexivity.
  Qed.
  (* a seed() that raises keeps the state, but the seed sequence has been replaced *)
  Theorem C85_failed_seed : forall q o o' e, seed q o = (o', Raise e) -> so_st o' = so_st o /\ so_seq o' = q.
  Proof.
    intros q o o' e. unfold so_seed, bind, modify, read, lift. cbn [so_numpy so_w so_k so_seq so_st]. destruct (if so_numpy o then _ else _); [discriminate|]. intros H. injection H as <- _. split; reflexivity.
  Qed.
  (* one seed, other integers: another generator; with another increment the streams never meet *)
  Theorem C85_distinct : forall q w k w' k' o o', wf 64 w -> wf 64 k -> wf 64 w' -> wf 64 k' -> Forall (wf 64) (sw q 3) ->
    new false MAbsent q (WInt (Z.of_N w)) (WInt (Z.of_N k)) = Ok o -> new false MAbsent q (WInt (Z.of_N w')) (WInt (Z.of_N k')) = Ok o' ->
    (so_st o = so_st o' -> w = w' /\ k = k') /\ (k <> k' -> forall i j, N.iter i sfc_step (core (so_st o)) <> N.iter j sfc_step (core (so_st o'))).
  Proof.
    intros q w k w' k' o o' W K W' K' F E E'. destruct (C85_integers q w k W K) as [A _]. destruct (C85_integers q w' k' W' K') as [A' _]. cbn zeta in A, A'.
    pose proof (eq_trans (eq_sym A) E) as X. pose proof (eq_trans (eq_sym A') E') as X'. injection X as <-. injection X' as <-. cbn [so_st started core].
    assert (G : forall i, wf 64 (word q 3 i)) by (intros i; rewrite Forall_forall in F; destruct (Nat.lt_ge_cases i (length (sw q 3))) as [L|L]; [apply F, nth_In, L|rewrite nth_overflow by exact L; apply wf_0]).
    split.
    - intros H. pose proof (f_equal core H) as C. cbn [started core] in C. apply C25_sfc_seeds_distinct in C; [|repeat (constructor; auto)]. injection C as -> ->. split; reflexivity.
    - intros H i j. apply C27_sfc_increments_apart. intros X. apply H. unfold sfc_seed in X. change (cstep sfc_next) with sfc_step in X. rewrite !sfc_iter_k in X. exact X.
  Qed.
  (* assigning a state restores the generator, and leaves w and k of the object: seed() afterwards is that of
     the object assigned to *)
  Theorem C85_restore : forall o t, sfpy_ok (so_st o) -> exists t', so_set Sq (sfc_get (so_st o)) t = (t', Ok tt) /\ so_st t' = so_st o /\
    (so_w t = so_w o -> so_k t = so_k o -> so_numpy t = so_numpy o -> forall q, fst (seed q t') = fst (seed q o) /\ snd (seed q t') = snd (seed q o)).
  Proof.
    intros o t H. unfold so_set. rewrite C18_sfc_restores by exact H. eexists. split; [reflexivity|]. split; [reflexivity|]. intros W K N q.
    unfold so_seed, bind, modify, read, lift. cbn [so_numpy so_w so_k so_seq so_st]. rewrite W, K, N. unfold so_from_seq_numpy, so_from_seq. cbn [so_numpy so_w so_k so_seq so_st].
    split; reflexivity.
  Qed.
End P.
(* so a generator that was made with k = 3, pickled or copied by its state, is seeded as one with k = 1 *)
Definition seqx (q n : N) : list N := words64 (Z.of_N q) (N.to_nat n).
Theorem C85_restored_reseed_refuted : exists o t t', so_new N seqx false false MAbsent 5 (WInt 1) (WInt 3) = Ok o /\ so_new N seqx false false MAbsent 6 (WInt 1) (WInt 1) = Ok t /\
  so_set N (sfc_get (so_st o)) t = (t', Ok tt) /\ so_st t' = so_st o /\ so_st (fst (so_seed N seqx false 7 t')) <> so_st (fst (so_seed N seqx false 7 o)).
Proof.
  destruct (C85_integers N seqx false 5 1 3 eq_refl eq_refl) as [A _]. destruct (C85_integers N seqx false 6 1 1 eq_refl eq_refl) as [B _]. cbn zeta in A, B.
  eexists _, _, _. split; [exact A|]. split; [exact B|]. split; [vm_compute; reflexivity|]. split; [vm_compute; reflexivity|]. vm_compute. discriminate.
Qed.
Example C85_case : exists o, so_new N seqx false false MAbsent 5 WNone WNone = Ok o /\ N.odd (sf_k (core (so_st o))) = true /\ sf_k (core (so_st o)) <> 1 /\ Forall (wf 64) (seqx 5 3) /\
  init_mode modes_two true (MText "Numpy") = Ok true /\ so_new N seqx false true (MText "Numpy") 5 (WInt 1) (WFloat 1 1) = Raise TypeError.
Proof.
  destruct (C85_integers N seqx false 5 1 3 eq_refl eq_refl) as (_ & _ & _ & A). eexists. split; [exact A|]. split; [vm_compute; reflexivity|]. split; [vm_compute; discriminate|].
  split.
  { apply Forall_forall. intros x X. assert (B : forallb (fun x => x <? 2 ^ 64) (seqx 5 3) = true) by (vm_compute; reflexivity). rewrite forallb_forall in B. apply N.ltb_lt, B, X. }
  split; vm_compute; reflexivity.
Qed.

Print Assumptions C85_integers.
Print Assumptions C85_numpy.
Print Assumptions C85_numpy_given.
Print Assumptions C85_floats.
Print Assumptions C85_rejected.
Print Assumptions C85_reseed.
Print Assumptions C85_failed_seed.
Print Assumptions C85_distinct.
Print Assumptions C85_restore.
Print Assumptions C85_restored_reseed_refuted.
