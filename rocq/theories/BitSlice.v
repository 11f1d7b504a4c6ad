(* Evaluating a GF(2)-linear step on all unit vectors at once: a 64-bit word is
   a list of 64 symbolic bits, each of them a row saying which bits of the
   initial state it is the exclusive or of. *)
From Coq Require Import Uint63.
From Coq Require Import NArith ZArith List Bool Lia ZifyBool ZifyNat ZifyN.
From Verif Require Import Word Gf2 Limb.
Import ListNotations.
Open Scope N_scope.

(* words packed into one number, least significant first *)
Lemma land_lo_hi x y : wf 64 x -> N.land x (N.shiftl y 64) = 0.
Proof.
  intros Hx. apply N.bits_inj. intros i. rewrite N.land_spec, N.bits_0. destruct (N.lt_ge_cases i 64) as [H|H].
  - rewrite N.shiftl_spec_low by exact H. apply andb_false_r.
  - now rewrite (proj1 (wf_testbit 64 x) Hx) by exact H.
Qed.
Fixpoint packw (l : list N) : N := match l with [] => 0 | x :: l => x + 2 ^ 64 * packw l end.
Lemma packw_bit l : forall j i, Forall (wf 64) l -> i < 64 ->
  N.testbit (packw l) (64 * N.of_nat j + i) = N.testbit (nth j l 0) i.
Proof.
  induction l as [|x l IH]; intros j i Hl Hi.
  - destruct j; cbn [packw nth]; now rewrite !N.bits_0.
  - inversion Hl as [|? ? Hx Hl']; subst. cbn [packw].
    assert (E : x + 2 ^ 64 * packw l = N.lor x (N.shiftl (packw l) 64)).
    { rewrite N.mul_comm, <- N.shiftl_mul_pow2. rewrite N.add_nocarry_lxor by (now apply land_lo_hi).
      apply N.lxor_lor. now apply land_lo_hi. }
    rewrite E, N.lor_spec. destruct j as [|j]; cbn [nth].
    + change (64 * N.of_nat 0 + i) with i. rewrite N.shiftl_spec_low by exact Hi. now rewrite orb_false_r.
    + rewrite (proj1 (wf_testbit 64 x) Hx) by lia. rewrite N.shiftl_spec_high' by lia.
      replace (64 * N.of_nat (S j) + i - 64) with (64 * N.of_nat j + i) by lia. now apply IH.
Qed.

Section Slice.
  Context (s : N).
  Definition par (v : N) : bool := ev xorb false (fun b => b) v true.
  Lemma par_lxor a b : par (N.lxor a b) = xorb (par a) (par b).
  Proof.
    unfold par.
    assert (L : linear xorb false (fun b : bool => b) (fun _ => True)).
    { constructor; auto using xorb_comm, xorb_false_r, xorb_nilpotent. intros; symmetry; apply xorb_assoc. }
    apply (l_ev_lxor _ _ _ _ L).
  Qed.
  Lemma par_pow2 k : par (2 ^ k) = true.
  Proof.
    unfold par. rewrite ev_pow2. induction k as [|k IH] using N.peano_ind; [reflexivity|]. now rewrite N.iter_succ, IH.
  Qed.
  Definition h (r : row) : bool := par (N.land (lval r) s).
  Lemma h_lx a b : Forall limb_ok a -> Forall limb_ok b -> h (lx a b) = xorb (h a) (h b).
  Proof.
    intros Ha Hb. unfold h. rewrite lval_lx by assumption.
    assert (E : N.land (N.lxor (lval a) (lval b)) s = N.lxor (N.land (lval a) s) (N.land (lval b) s)).
    { apply N.bits_inj. intros i. rewrite ?N.lxor_spec, ?N.land_spec, ?N.lxor_spec.
      destruct (N.testbit (lval a) i), (N.testbit (lval b) i), (N.testbit s i); reflexivity. }
    now rewrite E, par_lxor.
  Qed.
  Lemma h_nil : h [] = false. Proof. reflexivity. Qed.
  Lemma h_bit n k : k < 32 * N.of_nat n -> h (to_row n (2 ^ k)) = N.testbit s k.
  Proof.
    intros Hk. unfold h. rewrite to_row_val by (apply N.pow_lt_mono_r; lia).
    destruct (N.testbit s k) eqn:E.
    - replace (N.land (2 ^ k) s) with (2 ^ k); [apply par_pow2|].
      apply N.bits_inj. intros i. rewrite N.land_spec, N.pow2_bits_eqb. destruct (N.eqb_spec k i) as [<-|]; [now rewrite E|reflexivity].
    - replace (N.land (2 ^ k) s) with 0; [reflexivity|].
      apply N.bits_inj. intros i. rewrite N.land_spec, N.pow2_bits_eqb, N.bits_0. destruct (N.eqb_spec k i) as [<-|]; [now rewrite E|reflexivity].
  Qed.

  Notation bword := (list row).
  Definition rel (w : bword) (x : N) : Prop :=
    List.length w = 64%nat /\ wf 64 x /\ Forall (Forall limb_ok) w /\
    forall i, (i < 64)%nat -> h (nth i w []) = N.testbit x (N.of_nat i).
  Fixpoint bxor (a b : bword) : bword :=
    match a, b with x :: a, y :: b => lx x y :: bxor a b | _, _ => [] end.
  Definition bshl (k : nat) (w : bword) : bword := firstn 64 (repeat [] k ++ w).
  Definition bshr (k : nat) (w : bword) : bword := skipn k w ++ repeat [] k.
  Definition brotl (k : nat) (w : bword) : bword := skipn (64 - k) w ++ firstn (64 - k) w.
  Lemma bxor_len a : forall b, List.length a = List.length b -> List.length (bxor a b) = List.length a.
  Proof. induction a as [|x a IH]; intros [|y b] H; cbn in *; try lia. rewrite IH; lia. Qed.
  Lemma bxor_nth a : forall b i, List.length a = List.length b -> (i < List.length a)%nat ->
    nth i (bxor a b) [] = lx (nth i a []) (nth i b []).
  Proof. induction a as [|x a IH]; intros [|y b] [|i] H Hi; cbn in *; try lia; [reflexivity|]. apply IH; lia. Qed.
  Lemma bxor_ok a : forall b, Forall (Forall limb_ok) a -> Forall (Forall limb_ok) b -> Forall (Forall limb_ok) (bxor a b).
  Proof.
    induction a as [|x a IH]; intros [|y b] Ha Hb; cbn [bxor]; try constructor; inversion Ha; inversion Hb; subst; auto using lx_ok.
  Qed.
  Lemma rel_nth_ok w x i : rel w x -> Forall limb_ok (nth i w []).
  Proof.
    intros (L & _ & F & _). destruct (Nat.lt_ge_cases i (List.length w)) as [H|H].
    - rewrite Forall_forall in F. apply F, nth_In, H.
    - rewrite nth_overflow by exact H. constructor.
  Qed.
  Lemma rel_xor a b x y : rel a x -> rel b y -> rel (bxor a b) (N.lxor x y).
  Proof.
    intros A B. pose proof A as (La & Wa & Fa & Ha). pose proof B as (Lb & Wb & Fb & Hb).
    split; [rewrite bxor_len; congruence|]. split; [now apply wf_lxor|]. split; [now apply bxor_ok|].
    intros i Hi. rewrite bxor_nth by lia. rewrite h_lx by (eapply rel_nth_ok; eassumption).
    now rewrite Ha, Hb, N.lxor_spec.
  Qed.
  Lemma rep_ok k : Forall (Forall limb_ok) (repeat [] k).
  Proof. apply Forall_forall. intros r Hr. apply repeat_spec in Hr. subst. constructor. Qed.
  Lemma Forall_firstn {A} (P : A -> Prop) k l : Forall P l -> Forall P (firstn k l).
  Proof. intros H. rewrite <- (firstn_skipn k l) in H. now apply Forall_app in H. Qed.
  Lemma Forall_skipn {A} (P : A -> Prop) k l : Forall P l -> Forall P (skipn k l).
  Proof. intros H. rewrite <- (firstn_skipn k l) in H. now apply Forall_app in H. Qed.
  Lemma nth_firstn {A} (l : list A) k i d : (i < k)%nat -> nth i (firstn k l) d = nth i l d.
  Proof.
    revert k l. induction i as [|i IH]; intros [|k] [|x l] H; try lia; try reflexivity. cbn. apply IH. lia.
  Qed.
  Lemma nth_skipn {A} (l : list A) k i d : nth i (skipn k l) d = nth (k + i) l d.
  Proof.
    revert l. induction k as [|k IH]; intros [|x l]; try reflexivity; cbn [skipn Nat.add nth]; [now destruct i|apply IH].
  Qed.
  Lemma nth_rep k i : nth i (repeat (@nil int) k) [] = [].
  Proof. revert i. induction k as [|k IH]; intros [|i]; cbn; auto. Qed.
  Lemma rel_shl k w x : (k <= 64)%nat -> rel w x -> rel (bshl k w) (wshl 64 x (N.of_nat k)).
  Proof.
    intros Hk (Lw & Ww & Fw & Hw). unfold bshl.
    split; [rewrite firstn_length, app_length, repeat_length; lia|]. split; [apply wf_wshl|].
    split; [apply Forall_firstn, Forall_app; split; [apply rep_ok|exact Fw]|].
    intros i Hi. rewrite nth_firstn by exact Hi. unfold wshl, trunc. rewrite N.mod_pow2_bits_low by lia.
    destruct (Nat.lt_ge_cases i k) as [H|H].
    - rewrite app_nth1 by (rewrite repeat_length; exact H). rewrite nth_rep, h_nil.
      now rewrite N.shiftl_spec_low by lia.
    - rewrite app_nth2 by (rewrite repeat_length; exact H). rewrite repeat_length, Hw by lia.
      rewrite N.shiftl_spec_high' by lia. f_equal. lia.
  Qed.
  Lemma rel_shr k w x : (k <= 64)%nat -> rel w x -> rel (bshr k w) (N.shiftr x (N.of_nat k)).
  Proof.
    intros Hk (Lw & Ww & Fw & Hw). unfold bshr.
    split; [rewrite app_length, skipn_length, repeat_length; lia|]. split; [now apply wf_shr|].
    split; [apply Forall_app; split; [now apply Forall_skipn|apply rep_ok]|].
    intros i Hi. rewrite N.shiftr_spec'.
    destruct (Nat.lt_ge_cases i (64 - k)) as [H|H].
    - rewrite app_nth1 by (rewrite skipn_length; lia). rewrite nth_skipn, Hw by lia. f_equal. lia.
    - rewrite app_nth2 by (rewrite skipn_length; lia). rewrite nth_rep, h_nil. symmetry.
      apply (proj1 (wf_testbit 64 x) Ww). lia.
  Qed.
  Lemma rel_rotl k w x : (0 < k < 64)%nat -> rel w x -> rel (brotl k w) (rotl 64 x (N.of_nat k)).
  Proof.
    intros Hk R. pose proof R as (Lw & Ww & Fw & Hw). unfold brotl.
    destruct (rel_shl k w x ltac:(lia) R) as (_ & W1 & _ & H1).
    destruct (rel_shr (64 - k) w x ltac:(lia) R) as (_ & W2 & _ & H2).
    split; [rewrite app_length, skipn_length, firstn_length; lia|]. split; [now apply wf_rotl|].
    split; [apply Forall_app; split; [now apply Forall_skipn|now apply Forall_firstn]|].
    intros i Hi. rewrite rotl_xor by (exact Ww || lia). rewrite N.lxor_spec.
    replace (64 - N.of_nat k) with (N.of_nat (64 - k)) by lia.
    rewrite <- H1, <- H2 by exact Hi. unfold bshl, bshr. rewrite nth_firstn by exact Hi.
    destruct (Nat.lt_ge_cases i k) as [H|H].
    - rewrite (app_nth1 (repeat [] k)) by (rewrite repeat_length; exact H). rewrite nth_rep, h_nil, xorb_false_l.
      rewrite !app_nth1 by (rewrite skipn_length; lia). reflexivity.
    - rewrite (app_nth2 (repeat [] k)) by (rewrite repeat_length; exact H). rewrite repeat_length.
      rewrite !app_nth2 by (rewrite skipn_length; lia). rewrite nth_rep, h_nil, xorb_false_r.
      rewrite skipn_length, Lw. rewrite nth_firstn by lia. do 2 f_equal. lia.
  Qed.
  (* the word j of the initial state *)
  Definition bunit (n j : nat) : bword := map (fun i => to_row n (2 ^ (64 * N.of_nat j + N.of_nat i))) (seq 0 64).
  Lemma rel_unit n j l : s = packw l -> Forall (wf 64) l -> (64 * (j + 1) <= 32 * n)%nat -> rel (bunit n j) (nth j l 0).
  Proof.
    intros Es Hl Hn. unfold bunit. split; [now rewrite map_length, seq_length|].
    split.
    { destruct (Nat.lt_ge_cases j (List.length l)) as [H|H].
      - rewrite Forall_forall in Hl. apply Hl, nth_In, H.
      - rewrite nth_overflow by exact H. apply wf_0. }
    split.
    { apply Forall_forall. intros r Hr. apply in_map_iff in Hr as (i & <- & _). apply to_row_ok. }
    intros i Hi. rewrite (nth_indep _ [] (to_row n (2 ^ (64 * N.of_nat j + N.of_nat 0)))) by (now rewrite map_length, seq_length).
    rewrite (map_nth (fun i => to_row n (2 ^ (64 * N.of_nat j + N.of_nat i)))), seq_nth by exact Hi.
    rewrite h_bit by lia. rewrite Es. apply packw_bit; [exact Hl|lia].
  Qed.
  Definition bzero (w : bword) : bool := forallb (forallb (fun x => PrimInt63.eqb x L0)) w.
  Definition bnil : bword := repeat [] 64.
  Lemma rel_nil : rel bnil 0.
  Proof.
    split; [reflexivity|]. split; [apply wf_0|]. split; [apply rep_ok|]. intros i Hi. unfold bnil. now rewrite nth_rep, h_nil, N.bits_0.
  Qed.
  Lemma lval_zero r : forallb (fun x => PrimInt63.eqb x L0) r = true -> lval r = 0.
  Proof.
    induction r as [|x r IH]; intros H; [reflexivity|]. cbn [forallb] in H. apply andb_prop in H as [A B].
    cbn [lval]. rewrite (IH B). apply eqb_correct in A. subst. reflexivity.
  Qed.
  Lemma rel_zero w x : rel w x -> bzero w = true -> x = 0.
  Proof.
    intros (Lw & Ww & Fw & Hw) Z. apply N.bits_inj. intros i. rewrite N.bits_0.
    destruct (N.lt_ge_cases i 64) as [H|H]; [|now apply (proj1 (wf_testbit 64 x) Ww)].
    replace i with (N.of_nat (N.to_nat i)) by lia. rewrite <- Hw by lia. unfold h.
    rewrite lval_zero; [reflexivity|]. unfold bzero in Z. rewrite forallb_forall in Z. apply Z, nth_In. lia.
  Qed.
End Slice.

(* related states stay related under every polynomial in the step *)
Lemma evp_rel {A B} (R : A -> B -> Prop) adda Ta addb Tb p :
  (forall a b x y, R a x -> R b y -> R (adda a b) (addb x y)) ->
  (forall a x, R a x -> R (Ta a) (Tb x)) ->
  forall a x, R a x -> R (evp adda Ta p a) (evp addb Tb p x).
Proof. intros HA HT. induction p as [p IH|p IH|]; intros a x H; cbn [evp]; auto. Qed.
