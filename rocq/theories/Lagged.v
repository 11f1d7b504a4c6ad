(* The loops that SFMT (src/sfmt) and dSFMT (src/dsfmt) have in common. Both keep K
   128-bit words and make word n + K from the words n, n + P, n + K - 2 and n + K - 1
   and a word u that is carried along (the lung of dSFMT, which does not use the
   words n + K - 2 and n + K - 1; SFMT does not use u). f: the new word, g: the
   new u. Indices are nat: the C ints never become negative. None: an index out
   of bounds, or in lg_fill a word not yet written. *)
From Verif Require Import Word Arr.
From Coq Require Import ZifyBool ZifyNat ZifyN.
Open Scope N_scope.
Ltac Zify.zify_post_hook ::= idtac.

Lemma nth_err_nth (l : list N) i : (i < List.length l)%nat -> nth_error l i = Some (nth i l 0).
Proof. intros H. now apply nth_error_nth'. Qed.
Lemma nth_error_map_seq (h : nat -> N) n i : (i < n)%nat -> nth_error (map h (seq 0 n)) i = Some (h i).
Proof.
  intros H. rewrite nth_error_map, (nth_error_nth' _ 0%nat) by (now rewrite seq_length).
  cbn [option_map]. now rewrite seq_nth.
Qed.
Lemma list_eq (l1 l2 : list N) : List.length l1 = List.length l2 -> (forall i, (i < List.length l1)%nat -> nth_error l1 i = nth_error l2 i) -> l1 = l2.
Proof.
  revert l2. induction l1 as [|a l1 IH]; intros [|b l2] L H; try discriminate; [reflexivity|].
  pose proof (H 0%nat ltac:(cbn; lia)) as H0. cbn in H0. injection H0 as ->. f_equal.
  apply IH; [now injection L|]. intros i Hi. exact (H (Datatypes.S i) ltac:(cbn; lia)).
Qed.
Lemma upd_nth_error (l : list N) i v j : (i < List.length l)%nat -> nth_error (upd l i v) j = if (j =? i)%nat then Some v else nth_error l j.
Proof.
  revert i j. induction l as [|a l IH]; intros [|i] [|j] H; cbn [List.length] in H; try lia; try reflexivity.
  cbn [upd nth_error Nat.eqb]. apply IH. lia.
Qed.

Section Lagged.
  Variables (K P : nat) (f g : N -> N -> N -> N -> N -> N).

  (* sfmt.c:105-117 and dsfmt.c:145-154, the first two loops: word i of array from
     word i of st, word i + P of st or word i + P - K of array, the two words before
     it (r1, r2) and u. arr: the words written so far *)
  Fixpoint lg_fill (n i : nat) (st arr : list N) (c d u : N) : option (list N * N) :=
    match n with
    | O => Some (arr, u)
    | S n => match nth_error st i, (if (i <? K - P)%nat then nth_error st (i + P) else nth_error arr (i + P - K)) with
             | Some a, Some b => let r := f a b c d u in lg_fill n (S i) st (arr ++ [r])%list d r (g a b c d u)
             | _, _ => None
             end
    end.
  (* the same functions when called with size = K: the third and the last loop do
     nothing and the fourth copies array into the state *)
  Definition lg_block (st : list N) (u : N) : option (list N * N) :=
    match nth_error st (K - 2), nth_error st (K - 1) with
    | Some c, Some d => lg_fill K 0 st [] c d u
    | _, _ => None
    end.
  (* sfmt-jump.c:79-91 and dSFMT-jump.c:109-120 next_state. p: idx / 4 or idx / 2,
     modulo K *)
  Definition lg_next (s : list N * N * nat) : option (list N * N * nat) :=
    let '(st, u, p) := s in
    match nth_error st p, nth_error st ((p + P) mod K), nth_error st ((p + K - 2) mod K), nth_error st ((p + K - 1) mod K) with
    | Some a, Some b, Some c, Some d => Some (upd st p (f a b c d u), g a b c d u, ((p + 1) mod K)%nat)
    | _, _, _, _ => None
    end.
  (* sfmt-jump.c:38-72 and dSFMT-jump.c:63-102 add: dest->idx is 0, diff = p *)
  Fixpoint lg_add_from (n i p : nat) (w st : list N) : option (list N) :=
    match n with
    | O => Some w
    | S n => match nth_error w i, nth_error st (if (i <? K - p)%nat then i + p else i + p - K)%nat with
             | Some a, Some b => lg_add_from n (S i) p (upd w i (N.lxor a b)) st
             | _, _ => None
             end
    end.
  Definition lg_add (w : list N * N) (s : list N * N * nat) : option (list N * N) :=
    let '(st, u, p) := s in
    match lg_add_from K 0 p (fst w) st with Some w1 => Some (w1, N.lxor (snd w) u) | None => None end.
  (* sfmt-jump.c:98-125 and dSFMT-jump.c:149-180: cs: the bits of jump_string, the
     lowest of the first digit first *)
  Fixpoint lg_jump_from (cs : list bool) (w : list N * N) (s : list N * N * nat) : option (list N * N) :=
    match cs with
    | [] => Some w
    | c :: cs => match (if c then lg_add w s else Some w) with
                 | None => None
                 | Some w => match lg_next s with None => None | Some s => lg_jump_from cs w s end
                 end
    end.
  Definition lg_jump (cs : list bool) (st : list N) (u : N) : option (list N * N) :=
    lg_jump_from cs (repeat 0 K, 0) (st, u, 0%nat).

  (* ------------------------------------------------ the recurrence *)
  Notation KN := (N.of_nat K).
  Notation PN := (N.of_nat P).
  Definition lrec (x u : N -> N) : Prop := forall n,
    x (n + KN) = f (x n) (x (n + PN)) (x (n + (KN - 2))) (x (n + (KN - 1))) (u n) /\
    u (n + 1) = g (x n) (x (n + PN)) (x (n + (KN - 2))) (x (n + (KN - 1))) (u n).
  (* x and u begin with the state st, u0 and continue by the recurrence *)
  Definition lstarts (st : list N) (u0 : N) (x u : N -> N) : Prop :=
    List.length st = K /\ (forall i, (i < K)%nat -> nth i st 0 = x (N.of_nat i)) /\ u 0 = u0 /\ lrec x u.
  Definition shifted (J : N) (x : N -> N) : N -> N := fun i => x (J + i).
  Definition win (x : N -> N) (n : N) : list N := map (fun i => x (n + N.of_nat i)) (seq 0 K).

  Hypothesis K2 : (2 <= K)%nat.
  Hypothesis PK : (0 < P < K)%nat.

  Lemma win_length x n : List.length (win x n) = K.
  Proof. unfold win. now rewrite map_length, seq_length. Qed.
  Lemma win_nth x n i : (i < K)%nat -> nth_error (win x n) i = Some (x (n + N.of_nat i)).
  Proof. intros H. unfold win. now rewrite nth_error_map_seq. Qed.
  Lemma starts_win st u0 x u : lstarts st u0 x u -> st = win x 0.
  Proof.
    intros (L & H & _). apply list_eq; [now rewrite win_length|]. intros i Hi. rewrite L in Hi.
    rewrite win_nth, nth_err_nth by lia. now rewrite H.
  Qed.
  Lemma win_starts x u n : lrec x u -> lstarts (win x n) (u n) (shifted n x) (shifted n u).
  Proof.
    intros R. split; [apply win_length|]. split; [|split; [unfold shifted; f_equal; lia|]].
    - intros i Hi. unfold shifted. pose proof (win_nth x n i Hi) as E. rewrite nth_err_nth in E by (now rewrite win_length). congruence.
    - intros m. unfold shifted. destruct (R (n + m)) as [A B]. rewrite !N.add_assoc. split; [exact A|exact B].
  Qed.
  Lemma shifted_lrec x u n : lrec x u -> lrec (shifted n x) (shifted n u).
  Proof. intros R. apply (win_starts x u n R). Qed.

  (* the sequences exist *)
  Definition wstep (s : list N * N) : list N * N :=
    let '(l, u) := s in
    let a := nth 0 l 0 in let b := nth P l 0 in let c := nth (K - 2) l 0 in let d := nth (K - 1) l 0 in
    ((tl l ++ [f a b c d u])%list, g a b c d u).
  Definition wat (st : list N) (u0 : N) (n : N) : list N * N := N.iter n wstep (st, u0).
  Definition lx (st : list N) (u0 n : N) : N := nth 0 (fst (wat st u0 n)) 0.
  Definition lu (st : list N) (u0 n : N) : N := snd (wat st u0 n).
  Lemma wat_S st u0 n : wat st u0 (n + 1) = wstep (wat st u0 n).
  Proof. unfold wat. rewrite N.add_1_r. apply N.iter_succ. Qed.
  Lemma wat_length st u0 n : List.length st = K -> List.length (fst (wat st u0 n)) = K.
  Proof.
    intros L. induction n as [|n IH] using N.peano_ind; [exact L|]. rewrite <- N.add_1_r, wat_S.
    destruct (wat st u0 n) as [l u]. cbn [wstep fst] in *. rewrite app_length. destruct l; cbn [tl List.length] in *; lia.
  Qed.
  Lemma wat_nth st u0 i : forall n, List.length st = K -> (i < K)%nat -> nth i (fst (wat st u0 n)) 0 = lx st u0 (n + N.of_nat i).
  Proof.
    induction i as [|i IH]; intros n L H; [unfold lx; now rewrite N.add_0_r|].
    replace (n + N.of_nat (S i)) with (n + 1 + N.of_nat i) by lia. rewrite <- IH by (assumption || lia).
    rewrite wat_S. pose proof (wat_length st u0 n L) as W. destruct (wat st u0 n) as [l u]. cbn [wstep fst] in *.
    destruct l as [|h l]; [cbn in W; lia|]. cbn [tl nth]. cbn [List.length] in W. rewrite app_nth1 by lia. reflexivity.
  Qed.
  Lemma lseq_starts st u0 : List.length st = K -> lstarts st u0 (lx st u0) (lu st u0).
  Proof.
    intros L. split; [exact L|]. split; [|split; [reflexivity|]].
    - intros i Hi. rewrite <- (N.add_0_l (N.of_nat i)). now rewrite <- wat_nth.
    - intros n. unfold lu at 2. rewrite wat_S.
      replace (n + KN) with (n + 1 + N.of_nat (K - 1)) by lia. rewrite <- wat_nth by (assumption || lia). rewrite wat_S.
      replace (n + (KN - 2)) with (n + N.of_nat (K - 2)) by lia. replace (n + (KN - 1)) with (n + N.of_nat (K - 1)) by lia.
      rewrite <- !(wat_nth st u0) by (assumption || lia). unfold lx, lu.
      pose proof (wat_length st u0 n L) as W. destruct (wat st u0 n) as [l u]. cbn [wstep fst snd] in *.
      split; [|reflexivity]. destruct l as [|h l]; [cbn in W; lia|]. cbn [tl]. cbn [List.length] in W.
      rewrite app_nth2 by lia. replace (K - 1 - List.length l)%nat with 0%nat by lia. reflexivity.
  Qed.
  (* and are unique *)
  Lemma lrec_unique x u y v : lrec x u -> lrec y v -> u 0 = v 0 -> (forall i, i < KN -> x i = y i) ->
    forall n, x n = y n /\ u n = v n.
  Proof.
    intros Rx Ry U0 B.
    assert (G : forall n, (forall i, i < n + KN -> x i = y i) /\ u n = v n).
    { induction n as [|n [IH1 IH2]] using N.peano_ind; [split; [intros i Hi; apply B; lia|exact U0]|].
      destruct (Rx n) as [X1 X2]. destruct (Ry n) as [Y1 Y2].
      rewrite !(IH1 n), !(IH1 (n + PN)), !(IH1 (n + (KN - 2))), !(IH1 (n + (KN - 1))), IH2 in X1, X2 by lia.
      split; [|rewrite <- N.add_1_r; congruence]. intros i Hi.
      destruct (N.eq_dec i (n + KN)) as [->|D]; [congruence|apply IH1; lia]. }
    intros n. destruct (G n) as [G1 G2]. split; [apply G1; lia|exact G2].
  Qed.
  Lemma starts_unique st u0 x u y v : lstarts st u0 x u -> lstarts st u0 y v -> forall n, x n = y n /\ u n = v n.
  Proof.
    intros (_ & Bx & Ux & Rx) (_ & By & Uy & Ry). apply lrec_unique; try assumption; [congruence|].
    intros i Hi. rewrite <- (N2Nat.id i). rewrite <- Bx, <- By by lia. reflexivity.
  Qed.

  (* ------------------------------------------------ blocks *)
  Lemma fill_spec x u st u0 : lstarts st u0 x u -> forall n i, (i + n = K)%nat ->
    forall arr c d v, arr = map (fun j => x (KN + N.of_nat j)) (seq 0 i) ->
    c = x (KN + N.of_nat i - 2) -> d = x (KN + N.of_nat i - 1) -> v = u (N.of_nat i) ->
    lg_fill n i st arr c d v = Some (win x KN, u KN).
  Proof.
    intros S. pose proof (starts_win _ _ _ _ S) as ->. destruct S as (_ & _ & _ & R).
    induction n as [|n IH]; intros i Hi arr c d v -> -> -> ->; cbn [lg_fill].
    - replace i with K by lia. reflexivity.
    - rewrite win_nth by lia.
      assert (B : (if (i <? K - P)%nat then nth_error (win x 0) (i + P) else nth_error (map (fun j => x (KN + N.of_nat j)) (seq 0 i)) (i + P - K))
                  = Some (x (N.of_nat i + PN))).
      { destruct (i <? K - P)%nat eqn:E.
        - rewrite win_nth by lia. f_equal. f_equal. lia.
        - rewrite nth_error_map_seq by lia. f_equal. f_equal. lia. }
      rewrite B. destruct (R (N.of_nat i)) as [R1 R2]. rewrite N.add_0_l.
      replace (KN + N.of_nat i - 2) with (N.of_nat i + (KN - 2)) by lia.
      replace (KN + N.of_nat i - 1) with (N.of_nat i + (KN - 1)) by lia.
      cbv zeta. rewrite <- R1, <- R2. apply IH; [lia| | | |].
      + rewrite seq_S, map_app. cbn [map]. f_equal. f_equal. f_equal. lia.
      + f_equal. lia.
      + f_equal. lia.
      + f_equal. lia.
  Qed.
  Theorem block_spec x u st u0 : lstarts st u0 x u -> lg_block st u0 = Some (win x KN, u KN).
  Proof.
    intros S. unfold lg_block. pose proof (starts_win _ _ _ _ S) as E.
    assert (N : forall i, (i < K)%nat -> nth_error st i = Some (x (N.of_nat i))) by (intros i Hi; rewrite E, win_nth by exact Hi; reflexivity).
    rewrite !N by lia.
    apply (fill_spec x u st u0 S K 0); [lia|reflexivity| | |].
    - f_equal. lia.
    - f_equal. lia.
    - destruct S as (_ & _ & U & _). now rewrite <- U.
  Qed.

  (* ------------------------------------------------ the ring of next_state *)
  Definition lring (x u : N -> N) (n : N) (s : list N * N * nat) : Prop :=
    let '(st, v, p) := s in
    List.length st = K /\ v = u n /\ (p < K)%nat /\
    forall i, (i < K)%nat -> nth_error st (if (i <? K - p)%nat then i + p else i + p - K)%nat = Some (x (n + N.of_nat i)).
  Lemma wrap_mod p i : (p < K)%nat -> (i < K)%nat -> ((p + i) mod K = if (i <? K - p)%nat then i + p else i + p - K)%nat.
  Proof.
    intros Hp Hi. destruct (i <? K - p)%nat eqn:E.
    - rewrite Nat.mod_small by lia. lia.
    - replace (p + i)%nat with (i + p - K + 1 * K)%nat by lia. rewrite Nat.mod_add, Nat.mod_small by lia. reflexivity.
  Qed.
  Lemma ring_mod x u n st v p i : lring x u n (st, v, p) -> (i < K)%nat -> nth_error st ((p + i) mod K) = Some (x (n + N.of_nat i)).
  Proof. intros (L & _ & Hp & H) Hi. rewrite wrap_mod by assumption. now apply H. Qed.
  Lemma next_ring x u n s : lrec x u -> lring x u n s -> exists s', lg_next s = Some s' /\ lring x u (n + 1) s'.
  Proof.
    destruct s as [[st v] p]. intros R H. pose proof H as (L & -> & Hp & Hn). unfold lg_next.
    assert (E0 : nth_error st p = Some (x n)).
    { pose proof (Hn 0%nat ltac:(lia)) as A. replace (0 <? K - p)%nat with true in A by lia. cbn [Nat.add] in A. rewrite A. do 2 f_equal. lia. }
    rewrite E0, (ring_mod _ _ _ _ _ _ P H) by lia.
    replace (p + K - 2)%nat with (p + (K - 2))%nat by lia. replace (p + K - 1)%nat with (p + (K - 1))%nat by lia.
    rewrite (ring_mod _ _ _ _ _ _ (K - 2) H), (ring_mod _ _ _ _ _ _ (K - 1) H) by lia.
    replace (n + N.of_nat (K - 2)) with (n + (KN - 2)) by lia. replace (n + N.of_nat (K - 1)) with (n + (KN - 1)) by lia.
    destruct (R n) as [R1 R2]. rewrite <- R1, <- R2. eexists. split; [reflexivity|].
    split; [now rewrite upd_length|]. split; [reflexivity|]. split; [apply Nat.mod_upper_bound; lia|].
    intros i Hi. rewrite <- wrap_mod by (try apply Nat.mod_upper_bound; lia).
    rewrite Nat.add_mod_idemp_l by lia. rewrite upd_nth_error by lia.
    destruct (Nat.eq_dec i (K - 1)) as [->|D].
    - replace (p + 1 + (K - 1))%nat with (p + 1 * K)%nat by lia. rewrite Nat.mod_add, Nat.mod_small, Nat.eqb_refl by lia. do 2 f_equal. lia.
    - replace (p + 1 + i)%nat with (p + (i + 1))%nat by lia.
      destruct ((p + (i + 1)) mod K =? p)%nat eqn:E.
      + exfalso. rewrite wrap_mod in E by lia. destruct (i + 1 <? K - p)%nat eqn:E2; lia.
      + rewrite (ring_mod _ _ _ _ _ _ (i + 1) H) by lia. do 2 f_equal. lia.
  Qed.
  Lemma add_from_spec x u n st v p (w : nat -> N) : lring x u n (st, v, p) -> forall m i, (i + m = K)%nat ->
    lg_add_from m i p (map (fun j => if (j <? i)%nat then N.lxor (w j) (x (n + N.of_nat j)) else w j) (seq 0 K)) st
    = Some (map (fun j => N.lxor (w j) (x (n + N.of_nat j))) (seq 0 K)).
  Proof.
    intros H. pose proof H as (L & _ & Hp & Hn). induction m as [|m IH]; intros i Hi; cbn [lg_add_from].
    - f_equal. apply map_ext_in. intros j Hj. apply in_seq in Hj. replace (j <? i)%nat with true by lia. reflexivity.
    - rewrite nth_error_map_seq by lia. rewrite Hn by lia. replace (i <? i)%nat with false by lia.
      rewrite <- (IH (Datatypes.S i)) by lia. f_equal. apply list_eq; [now rewrite upd_length, !map_length|].
      intros j Hj. rewrite upd_length, map_length, seq_length in Hj.
      rewrite upd_nth_error by (rewrite map_length, seq_length; lia). rewrite !nth_error_map_seq by lia.
      destruct (j =? i)%nat eqn:E.
      + apply Nat.eqb_eq in E. subst j. replace (i <? S i)%nat with true by lia. reflexivity.
      + replace (j <? S i)%nat with (j <? i)%nat by lia. reflexivity.
  Qed.

  (* the polynomial with the coefficients cs, lowest first, in the shift *)
  Fixpoint lpol (cs : list bool) (x : N -> N) (i : N) : N :=
    match cs with
    | [] => 0
    | c :: cs => N.lxor (if c then x i else 0) (lpol cs x (i + 1))
    end.
  Lemma lpol_ext cs x y : (forall i, x i = y i) -> forall i, lpol cs x i = lpol cs y i.
  Proof. intros E. induction cs as [|c cs IH]; intros i; [reflexivity|]. cbn [lpol]. now rewrite E, IH. Qed.
  Lemma lpol_shifted cs x n : forall i, lpol cs (shifted n x) i = lpol cs x (n + i).
  Proof. induction cs as [|c cs IH]; intros i; [reflexivity|]. cbn [lpol]. rewrite IH. unfold shifted. now rewrite N.add_assoc. Qed.
  Lemma jump_from_spec x u : lrec x u -> forall cs n s (w : nat -> N) v, lring x u n s ->
    lg_jump_from cs (map w (seq 0 K), v) s
    = Some (map (fun i => N.lxor (w i) (lpol cs x (n + N.of_nat i))) (seq 0 K), N.lxor v (lpol cs u n)).
  Proof.
    intros R. induction cs as [|c cs IH]; intros n s w v H; cbn [lg_jump_from lpol].
    - rewrite N.lxor_0_r. do 2 f_equal. apply map_ext. intros i. now rewrite N.lxor_0_r.
    - destruct (next_ring x u n s R H) as (s1 & E1 & H1). destruct s as [[st v0] p].
      assert (A : (if c then lg_add (map w (seq 0 K), v) (st, v0, p) else Some (map w (seq 0 K), v))
                  = Some (map (fun i => N.lxor (w i) (if c then x (n + N.of_nat i) else 0)) (seq 0 K), N.lxor v (if c then u n else 0))).
      { destruct c.
        - unfold lg_add. cbn [fst snd]. pose proof (add_from_spec x u n st v0 p w H K 0 ltac:(lia)) as E.
          match type of E with lg_add_from _ _ _ ?l _ = _ => change l with (map w (seq 0 K)) in E end. rewrite E. destruct H as (_ & -> & _). reflexivity.
        - rewrite N.lxor_0_r. do 2 f_equal. apply map_ext. intros i. now rewrite N.lxor_0_r. }
      rewrite A, E1, (IH (n + 1) s1 _ _ H1). rewrite N.lxor_assoc. do 2 f_equal. apply map_ext. intros i. rewrite N.lxor_assoc.
      do 2 f_equal. f_equal. lia.
  Qed.
  Theorem jump_spec x u st u0 cs : lstarts st u0 x u -> lg_jump cs st u0 = Some (win (lpol cs x) 0, lpol cs u 0).
  Proof.
    intros S. unfold lg_jump.
    assert (Rep : repeat 0 K = map (fun _ => 0) (seq 0 K)).
    { apply list_eq; [now rewrite repeat_length, map_length, seq_length|]. intros i Hi. rewrite repeat_length in Hi.
      rewrite nth_error_map_seq, nth_err_nth by (rewrite ?repeat_length; lia). now rewrite nth_repeat. }
    rewrite Rep. rewrite (jump_from_spec x u) with (n := 0).
    - rewrite N.lxor_0_l. do 2 f_equal.
    - apply S.
    - pose proof (starts_win _ _ _ _ S) as ->. destruct S as (L & _ & U & _). split; [exact L|]. split; [now rewrite U|].
      split; [lia|]. intros i Hi. replace (i <? K - 0)%nat with true by lia. rewrite Nat.add_0_r. now apply win_nth.
  Qed.

  (* linear f and g: a polynomial in the shift keeps the recurrence *)
  Hypothesis f_lin : forall a a' b b' c c' d d' v v',
    f (N.lxor a a') (N.lxor b b') (N.lxor c c') (N.lxor d d') (N.lxor v v') = N.lxor (f a b c d v) (f a' b' c' d' v').
  Hypothesis g_lin : forall a a' b b' c c' d d' v v',
    g (N.lxor a a') (N.lxor b b') (N.lxor c c') (N.lxor d d') (N.lxor v v') = N.lxor (g a b c d v) (g a' b' c' d' v').
  Lemma f_0 : f 0 0 0 0 0 = 0.
  Proof. pose proof (f_lin 0 0 0 0 0 0 0 0 0 0) as H. rewrite N.lxor_0_l, N.lxor_nilpotent in H. exact H. Qed.
  Lemma g_0 : g 0 0 0 0 0 = 0.
  Proof. pose proof (g_lin 0 0 0 0 0 0 0 0 0 0) as H. rewrite N.lxor_0_l, N.lxor_nilpotent in H. exact H. Qed.
  Lemma lpol_lrec x u cs : lrec x u -> lrec (lpol cs x) (lpol cs u).
  Proof.
    intros R n. revert n. induction cs as [|c cs IH]; intros n; cbn [lpol].
    - rewrite f_0, g_0. split; reflexivity.
    - rewrite f_lin, g_lin. destruct (IH (n + 1)) as [I1 I2]. destruct (R n) as [R1 R2].
      replace (n + KN + 1) with (n + 1 + KN) by lia. rewrite I1, I2.
      replace (n + PN + 1) with (n + 1 + PN) by lia. replace (n + (KN - 2) + 1) with (n + 1 + (KN - 2)) by lia.
      replace (n + (KN - 1) + 1) with (n + 1 + (KN - 1)) by lia.
      destruct c; [rewrite R1, R2|rewrite f_0, g_0]; split; reflexivity.
  Qed.
  Lemma jump_starts x u st u0 cs : lstarts st u0 x u ->
    exists st' u', lg_jump cs st u0 = Some (st', u') /\ lstarts st' u' (lpol cs x) (lpol cs u).
  Proof.
    intros S. do 2 eexists. split; [exact (jump_spec x u st u0 cs S)|].
    destruct (win_starts (lpol cs x) (lpol cs u) 0 (lpol_lrec x u cs (proj2 (proj2 (proj2 S))))) as (L & B & _ & R).
    split; [exact L|]. split; [|split; [reflexivity|apply (lpol_lrec x u cs), S]]. intros i Hi. rewrite B by exact Hi. unfold shifted. f_equal.
  Qed.
End Lagged.
