(* gen_rand_array of SFMT and gen_rand_array_c1o2, _c0o1, _o0o1, _o0c1 of dSFMT in
   full, for every size: sfmt.c:97-134, dsfmt.c:133-294. The generators only call them
   with size = K, which Lagged.lg_block describes; FillArr proves the two equal. *)
From Verif Require Import Word Arr Lagged.
From Coq Require Import ZifyBool ZifyNat ZifyN.
Open Scope N_scope.
Ltac Zify.zify_post_hook ::= idtac.

Section Fill.
  Variables (K P : nat) (f g : N -> N -> N -> N -> N -> N).
  (* convert_c0o1, convert_o0o1 or convert_o0c1; the identity for SFMT and
     gen_rand_array_c1o2, which do not convert (the write of the same word there is
     an addition of the model) *)
  Variable conv : N -> N.
  (* a write to an array; None: out of bounds *)
  Definition put (l : list N) (i : nat) (v : N) : option (list N) := if (i <? List.length l)%nat then Some (upd l i v) else None.
  (* array[i] = convert(array[i]) *)
  Definition cvt (l : list N) (i : nat) : option (list N) := match nth_error l i with Some x => put l i (conv x) | None => None end.

  (* what the loops carry: array, the words r1 and r2 point to, u *)
  Record fs := FS { fs_arr : list N; fs_c : N; fs_d : N; fs_u : N }.
  (* do_recursion(&array[i], a, b, r1, r2); r1 = r2; r2 = &array[i]. No word that r1 or r2
     points to is changed before it is read for the last time. *)
  Definition fstep (a b : option N) (i : nat) (s : fs) : option fs :=
    match a, b with
    | Some a, Some b => let r := f a b (fs_c s) (fs_d s) (fs_u s) in
                        match put (fs_arr s) i r with
                        | Some arr => Some (FS arr (fs_d s) r (g a b (fs_c s) (fs_d s) (fs_u s)))
                        | None => None
                        end
    | _, _ => None
    end.
  (* sfmt.c:103-114, dsfmt.c:146-154 and the same lines of the other three *)
  Fixpoint fa1 (n i : nat) (st : list N) (s : fs) : option fs :=
    match n with
    | O => Some s
    | S n => match fstep (nth_error st i) (if (i <? K - P)%nat then nth_error st (i + P) else nth_error (fs_arr s) (i + P - K)) i s with
             | Some s => fa1 n (S i) st s
             | None => None
             end
    end.
  (* one round of sfmt.c:115-120, dsfmt.c:155-158, and with conversion dsfmt.c:192-196 *)
  Definition fnext (i : nat) (s : fs) : option fs := fstep (nth_error (fs_arr s) (i - K)) (nth_error (fs_arr s) (i + P - K)) i s.
  Definition fcvt (i : nat) (s : fs) : option fs :=
    match cvt (fs_arr s) i with Some arr => Some (FS arr (fs_c s) (fs_d s) (fs_u s)) | None => None end.
  Fixpoint fa3 (n i : nat) (s : fs) : option fs :=
    match n with
    | O => Some s
    | S n => match fnext i s with
             | Some s => match fcvt (i - K) s with Some s => fa3 n (S i) s | None => None end
             | None => None
             end
    end.
  (* sfmt.c:121-123, dsfmt.c:159-161 *)
  Fixpoint fa4 (n j size : nat) (arr st : list N) : option (list N) :=
    match n with
    | O => Some st
    | S n => match nth_error arr (j + size - K) with
             | Some v => match put st j v with Some st => fa4 n (S j) size arr st | None => None end
             | None => None
             end
    end.
  (* sfmt.c:124-130, dsfmt.c:162-166, and with conversion dsfmt.c:200-205 *)
  Fixpoint fa5 (n i j : nat) (s : fs) (st : list N) : option (fs * list N) :=
    match n with
    | O => Some (s, st)
    | S n => match fnext i s with
             | Some s => match nth_error (fs_arr s) i with
                         | Some v => match put st j v with
                                     | Some st => match fcvt (i - K) s with Some s => fa5 n (S i) (S j) s st | None => None end
                                     | None => None
                                     end
                         | None => None
                         end
             | None => None
             end
    end.
  (* dsfmt.c:206-208 *)
  Fixpoint fa6 (n i : nat) (s : fs) : option fs :=
    match n with
    | O => Some s
    | S n => match fcvt i s with Some s => fa6 n (S i) s | None => None end
    end.
  (* the whole function: new state and array. Loop counters as in C; size < K would
     violate the assertion in fill_array *)
  Definition gen_rand_array (size : nat) (st : list N) (u : N) (arr : list N) : option (list N * N * list N) :=
    match nth_error st (K - 2), nth_error st (K - 1) with
    | Some c, Some d =>
        match fa1 K 0 st (FS arr c d u) with
        | Some s => match fa3 (size - K - K) K s with
                    | Some s => match fa4 (2 * K - size) 0 size (fs_arr s) st with
                                | Some st => let i := Nat.max K (size - K) in
                                             match fa5 (size - i) i (2 * K - size) s st with
                                             | Some (s, st) => match fa6 K (size - K) s with
                                                               | Some s => Some (st, fs_u s, fs_arr s)
                                                               | None => None
                                                               end
                                             | None => None
                                             end
                                | None => None
                                end
                    | None => None
                    end
        | None => None
        end
    | _, _ => None
    end.

  (* ------------------------------------------------ what it computes *)
  Hypothesis K2 : (2 <= K)%nat.
  Hypothesis PK : (0 < P < K)%nat.
  Variables (size : nat) (x u : N -> N).
  Hypothesis SK : (K <= size)%nat.
  Hypothesis R : lrec K P f g x u.
  Notation KN := (N.of_nat K).
  (* the words 0 .. i-1 are written and the first k of them converted *)
  Definition ainv (i k : nat) (arr : list N) : Prop :=
    List.length arr = size /\
    forall j, (j < i)%nat -> nth_error arr j = Some (if (j <? k)%nat then conv (x (KN + N.of_nat j)) else x (KN + N.of_nat j)).
  Definition sinv (i k : nat) (s : fs) : Prop :=
    ainv i k (fs_arr s) /\ fs_c s = x (KN + N.of_nat i - 2) /\ fs_d s = x (KN + N.of_nat i - 1) /\ fs_u s = u (N.of_nat i).
  Lemma fstep_inv i k s a b : sinv i k s -> (k <= i < size)%nat -> a = Some (x (N.of_nat i)) -> b = Some (x (N.of_nat i + N.of_nat P)) ->
    exists s', fstep a b i s = Some s' /\ sinv (S i) k s'.
  Proof.
    intros (A & C & D & U) Hk -> ->. destruct A as [L A]. unfold fstep, put. rewrite L. replace (i <? size)%nat with true by lia.
    rewrite C, D, U. destruct (R (N.of_nat i)) as [R1 R2].
    replace (KN + N.of_nat i - 2) with (N.of_nat i + (KN - 2)) by lia. replace (KN + N.of_nat i - 1) with (N.of_nat i + (KN - 1)) by lia.
    rewrite <- R1, <- R2. eexists. split; [reflexivity|]. unfold sinv. cbn [fs_arr fs_c fs_d fs_u]. split.
    - split; [now rewrite upd_length|]. intros j Hj. rewrite upd_nth_error by lia. destruct (j =? i)%nat eqn:E.
      + apply Nat.eqb_eq in E. subst j. replace (i <? k)%nat with false by lia. do 2 f_equal. lia.
      + apply A. lia.
    - split; [f_equal; lia|]. split; [f_equal; lia|]. f_equal. lia.
  Qed.
  Lemma fa1_inv st : st = win K x 0 -> forall n i s, (i + n = K)%nat -> sinv i 0 s -> exists s', fa1 n i st s = Some s' /\ sinv K 0 s'.
  Proof.
    intros ->. induction n as [|n IH]; intros i s Hi H; cbn [fa1].
    - exists s. split; [reflexivity|]. now replace K with i by lia.
    - destruct (fstep_inv i 0 s (nth_error (win K x 0) i) (if (i <? K - P)%nat then nth_error (win K x 0) (i + P) else nth_error (fs_arr s) (i + P - K))) as (s' & E & H'); [exact H|lia| | |].
      + rewrite win_nth by (assumption || lia). now rewrite N.add_0_l.
      + destruct (i <? K - P)%nat eqn:E.
        * rewrite win_nth by (assumption || lia). f_equal. f_equal. lia.
        * destruct H as ((_ & A) & _). rewrite A by lia. cbn [Nat.ltb Nat.leb]. do 2 f_equal. lia.
      + rewrite E. apply IH; [lia|exact H'].
  Qed.
  Lemma fnext_inv i s : sinv i (i - K) s -> (K <= i < size)%nat -> exists s', fnext i s = Some s' /\ sinv (S i) (i - K) s'.
  Proof.
    intros H Hi. apply fstep_inv; [exact H|lia| |]; destruct H as ((_ & A) & _); rewrite A by lia.
    - replace (i - K <? i - K)%nat with false by lia. do 2 f_equal. lia.
    - replace (i + P - K <? i - K)%nat with false by lia. do 2 f_equal. lia.
  Qed.
  Lemma fcvt_inv i k s : sinv i k s -> (k < i <= size)%nat -> exists s', fcvt k s = Some s' /\ sinv i (S k) s'.
  Proof.
    intros (A & C & D & U) Hk. destruct A as [L A]. unfold fcvt, cvt. rewrite A by lia. replace (k <? k)%nat with false by lia.
    unfold put. rewrite L. replace (k <? size)%nat with true by lia. eexists. split; [reflexivity|].
    unfold sinv. cbn [fs_arr fs_c fs_d fs_u]. split; [|auto]. split; [now rewrite upd_length|].
    intros j Hj. rewrite upd_nth_error by lia. destruct (j =? k)%nat eqn:E.
    - apply Nat.eqb_eq in E. subst j. now replace (k <? S k)%nat with true by lia.
    - rewrite A by lia. now replace (j <? S k)%nat with (j <? k)%nat by lia.
  Qed.
  Lemma fa3_inv n : forall i s, (K <= i)%nat -> (i + n <= size)%nat -> sinv i (i - K) s ->
    exists s', fa3 n i s = Some s' /\ sinv (i + n) (i + n - K) s'.
  Proof.
    induction n as [|n IH]; intros i s Hi Hn H; cbn [fa3].
    - exists s. rewrite Nat.add_0_r. auto.
    - destruct (fnext_inv i s H) as (s1 & E1 & H1); [lia|]. rewrite E1.
      destruct (fcvt_inv (S i) (i - K) s1 H1) as (s2 & E2 & H2); [lia|]. rewrite E2.
      replace (S (i - K)) with (S i - K)%nat in H2 by lia. destruct (IH (S i) s2) as (s3 & E3 & H3); [lia|lia|exact H2|].
      exists s3. split; [exact E3|]. now replace (i + S n)%nat with (S i + n)%nat by lia.
  Qed.
  (* the first j words of the state are new *)
  Definition tinv (j : nat) (st : list N) : Prop :=
    List.length st = K /\ forall j', (j' < j)%nat -> nth_error st j' = Some (x (N.of_nat size + N.of_nat j')).
  Lemma put_tinv j st v : tinv j st -> (j < K)%nat -> v = x (N.of_nat size + N.of_nat j) -> exists st', put st j v = Some st' /\ tinv (S j) st'.
  Proof.
    intros [L T] Hj ->. unfold put. rewrite L. replace (j <? K)%nat with true by lia. eexists. split; [reflexivity|].
    split; [now rewrite upd_length|]. intros j' H'. rewrite upd_nth_error by lia. destruct (j' =? j)%nat eqn:E.
    - apply Nat.eqb_eq in E. now subst j'.
    - apply T. lia.
  Qed.
  Lemma fa4_inv arr : ainv K 0 arr -> forall n j st, (j + n <= 2 * K - size)%nat -> tinv j st ->
    exists st', fa4 n j size arr st = Some st' /\ tinv (j + n) st'.
  Proof.
    intros [L A]. induction n as [|n IH]; intros j st Hn T; cbn [fa4].
    - exists st. rewrite Nat.add_0_r. auto.
    - rewrite A by lia. cbn [Nat.ltb Nat.leb]. destruct (put_tinv j st (x (KN + N.of_nat (j + size - K))) T) as (st1 & E & T1); [lia|f_equal; lia|].
      rewrite E. destruct (IH (S j) st1) as (st2 & E2 & T2); [lia|exact T1|]. exists st2. split; [exact E2|].
      now replace (j + S n)%nat with (S j + n)%nat by lia.
  Qed.
  Lemma fa5_inv n : forall i j s st, (i + n = size)%nat -> (K <= i)%nat -> (size + j = K + i)%nat -> sinv i (i - K) s -> tinv j st ->
    exists s' st', fa5 n i j s st = Some (s', st') /\ sinv size (size - K) s' /\ tinv K st'.
  Proof.
    induction n as [|n IH]; intros i j s st Hn Hi Hj H T; cbn [fa5].
    - exists s, st. replace size with i by lia. replace K with j at 2 by lia. auto.
    - destruct (fnext_inv i s H) as (s1 & E1 & H1); [lia|]. rewrite E1.
      pose proof H1 as ((L & A) & _). rewrite A by lia. replace (i <? i - K)%nat with false by lia.
      destruct (put_tinv j st (x (KN + N.of_nat i)) T) as (st1 & E & T1); [lia|f_equal; lia|]. rewrite E.
      destruct (fcvt_inv (S i) (i - K) s1 H1) as (s2 & E2 & H2); [lia|]. rewrite E2.
      replace (S (i - K)) with (S i - K)%nat in H2 by lia. apply IH; (assumption || lia).
  Qed.
  Lemma fa6_inv n : forall i s, (i + n = size)%nat -> sinv size i s -> exists s', fa6 n i s = Some s' /\ sinv size size s'.
  Proof.
    induction n as [|n IH]; intros i s Hn H; cbn [fa6].
    - exists s. split; [reflexivity|]. now replace size with i at 2 by lia.
    - destruct (fcvt_inv size i s H) as (s1 & E1 & H1); [lia|]. rewrite E1. apply IH; [lia|exact H1].
  Qed.
  Theorem gen_rand_array_spec st u0 arr : lstarts K P f g st u0 x u -> List.length arr = size ->
    gen_rand_array size st u0 arr = Some (win K x (N.of_nat size), u (N.of_nat size), map (fun j => conv (x (KN + N.of_nat j))) (seq 0 size)).
  Proof.
    intros S L. pose proof (starts_win K P f g K2 PK _ _ _ _ S) as Est. destruct S as (Lst & _ & U0 & _).
    unfold gen_rand_array.
    assert (Ec : nth_error st (K - 2) = Some (x (KN + N.of_nat 0 - 2))) by (rewrite Est, win_nth by (assumption || lia); do 2 f_equal; lia).
    assert (Ed : nth_error st (K - 1) = Some (x (KN + N.of_nat 0 - 1))) by (rewrite Est, win_nth by (assumption || lia); do 2 f_equal; lia).
    rewrite Ec, Ed.
    destruct (fa1_inv st Est K 0 (FS arr (x (KN + N.of_nat 0 - 2)) (x (KN + N.of_nat 0 - 1)) u0)) as (s1 & E1 & H1); [lia| |].
    { unfold sinv. cbn [fs_arr fs_c fs_d fs_u]. split; [|auto]. split; [exact L|]. intros j Hj. lia. }
    rewrite E1. destruct (fa3_inv (size - K - K) K s1) as (s2 & E2 & H2); [lia|lia|now rewrite Nat.sub_diag|]. rewrite E2.
    assert (T0 : tinv 0 st) by (split; [exact Lst|intros j Hj; lia]).
    assert (E4 : exists st', fa4 (2 * K - size) 0 size (fs_arr s2) st = Some st' /\ tinv (2 * K - size) st').
    { destruct (2 * K - size)%nat as [|m] eqn:Em; [exists st; auto|]. rewrite <- Em.
      assert (A : ainv K 0 (fs_arr s2)).
      { replace (size - K - K)%nat with 0%nat in H2 by lia. rewrite Nat.add_0_r, Nat.sub_diag in H2. apply H2. }
      destruct (fa4_inv _ A (2 * K - size) 0 st) as (st' & E4 & T4); [lia|exact T0|]. exists st'. auto. }
    destruct E4 as (st' & E4 & T4). rewrite E4. cbv zeta.
    replace (Nat.max K (size - K)) with (K + (size - K - K))%nat by lia.
    destruct (fa5_inv (size - (K + (size - K - K))) (K + (size - K - K)) (2 * K - size) s2 st') as (s3 & st3 & E5 & H3 & T5); [lia|lia|lia|exact H2|exact T4|].
    rewrite E5. destruct (fa6_inv K (size - K) s3) as (s4 & E6 & H4); [lia|exact H3|]. rewrite E6.
    destruct H4 as ((L4 & A4) & _ & _ & U4). rewrite U4. do 2 f_equal; [f_equal|].
    - destruct T5 as [LT T5]. apply list_eq; [now rewrite win_length|]. intros j Hj. rewrite LT in Hj. rewrite T5, win_nth by (assumption || lia). reflexivity.
    - apply list_eq; [now rewrite map_length, seq_length|]. intros j Hj. rewrite L4 in Hj. rewrite A4, nth_error_map_seq by lia.
      now replace (j <? size)%nat with true by lia.
  Qed.
End Fill.
