(* The buffer in front of the loops of Lagged.v, the same in sfmt.h and dsfmt.h, with
   facts about the stream of 64-bit halves that comes out of it *)
From Verif Require Import Word Arr Lagged.
From Coq Require Import ZifyBool ZifyNat ZifyN.
Open Scope N_scope.
Ltac Zify.zify_post_hook ::= idtac.

(* the struct: the state array, its last word in dSFMT (u), idx, the buffer of 2 K
   64-bit words and buffer_loc *)
Record lb := LB { lb_st : list N; lb_u : N; lb_idx : Z; lb_buf : list N; lb_loc : Z }.
(* the 128-bit words as u64[0], u64[1] *)
Definition halves (l : list N) : list N := flat_map (fun x => [trunc 64 x; trunc 64 (N.shiftr x 64)]) l.
Definition lhalf (x : N -> N) (m : N) : N := trunc 64 (N.shiftr (x (m / 2)) (64 * (m mod 2))).

Lemma some_inj (a b : N) : Some a = Some b -> a = b.
Proof. congruence. Qed.
Lemma halves_length l : List.length (halves l) = (2 * List.length l)%nat.
Proof. induction l as [|a l IH]; [reflexivity|]. unfold halves in *. cbn [flat_map app List.length]. rewrite IH. lia. Qed.
Lemma halves_nth l : forall i, (i < 2 * List.length l)%nat ->
  nth_error (halves l) i = Some (trunc 64 (N.shiftr (nth (i / 2) l 0) (64 * N.of_nat (i mod 2)))).
Proof.
  induction l as [|a l IH]; intros i Hi; [cbn in Hi; lia|]. cbn [List.length] in Hi.
  destruct i as [|[|i]].
  - cbn. unfold trunc. now rewrite N.shiftr_0_r.
  - reflexivity.
  - replace (S (S i)) with (i + 1 * 2)%nat by lia. rewrite Nat.div_add, Nat.mod_add by lia.
    replace (i / 2 + 1)%nat with (S (i / 2)) by lia. cbn [nth]. rewrite <- IH by lia.
    replace (i + 1 * 2)%nat with (S (S i)) by lia. reflexivity.
Qed.
Lemma lhalf_add (x : N -> N) n m : lhalf x (2 * n + m) = lhalf (shifted n x) m.
Proof.
  unfold lhalf, shifted. replace (2 * n + m) with (m + n * 2) by lia. rewrite N.div_add, N.mod_add by lia. do 3 f_equal; lia.
Qed.
Lemma lhalf_ext (x y : N -> N) m : (forall i, x i = y i) -> lhalf x m = lhalf y m.
Proof. intros E. unfold lhalf. now rewrite E. Qed.

Section Buf.
  Variables (K P : nat) (f g : N -> N -> N -> N -> N -> N).
  (* idx after a block, and whether the assertion on it passes *)
  Variable fine : Z -> bool.
  (* sfmt.h:320-329 sfmt_next_buffer, dsfmt.h:652-662 dsfmt_next_buffer: when the
     buffer is used up, fill_array makes a block, which is also the new state; None:
     out of bounds, or the process is aborted by a failed assertion *)
  Definition lb_next (s : lb) : option (lb * N) :=
    if (lb_loc s <? 2 * Z.of_nat K)%Z then
      match rd (lb_buf s) (lb_loc s) with
      | Some v => Some (LB (lb_st s) (lb_u s) (lb_idx s) (lb_buf s) (lb_loc s + 1), v)
      | None => None
      end
    else if fine (lb_idx s) then
      match lg_block K P f g (lb_st s) (lb_u s) with
      | Some (arr, u) => match rd (halves arr) 0 with
                         | Some v => Some (LB arr u (lb_idx s) (halves arr) 1, v)
                         | None => None
                         end
      | None => None
      end
    else None.
  Fixpoint lb_draws (n : nat) (s : lb) : option (lb * list N) :=
    match n with
    | O => Some (s, [])
    | S n => match lb_next s with
             | None => None
             | Some (s1, v) => match lb_draws n s1 with None => None | Some (s2, vs) => Some (s2, v :: vs) end
             end
    end.
  (* SFMT_jump and dSFMT_jump keep idx; jump_inplace then sets buffer_loc to 2 K *)
  Definition lb_jump (cs : list bool) (s : lb) : option lb :=
    match lg_jump K P f g cs (lb_st s) (lb_u s) with
    | Some (st, u) => Some (LB st u (lb_idx s) (lb_buf s) (lb_loc s))
    | None => None
    end.
  Definition lb_reset (s : lb) : lb := LB (lb_st s) (lb_u s) (lb_idx s) (lb_buf s) (2 * Z.of_nat K).

  Hypothesis K2 : (2 <= K)%nat.
  Hypothesis PK : (0 < P < K)%nat.
  Notation KN := (N.of_nat K).
  Notation lx := (lx K P f g). Notation lu := (lu K P f g). Notation lrec := (lrec K P f g). Notation lstarts := (lstarts K P f g).
  Notation wat := (wat K P f g).

  Lemma wat_win st u0 n : List.length st = K -> wat st u0 n = (win K (lx st u0) n, lu st u0 n).
  Proof.
    intros L. rewrite (surjective_pairing (wat st u0 n)). f_equal. apply list_eq; [rewrite wat_length by assumption; now rewrite win_length|].
    intros i Hi. rewrite wat_length in Hi by assumption. rewrite win_nth by exact Hi.
    rewrite (nth_err_nth _ i) by (now rewrite wat_length). now rewrite wat_nth.
  Qed.
  Lemma block_wat st u0 : List.length st = K -> lg_block K P f g st u0 = Some (wat st u0 KN).
  Proof.
    intros L. rewrite wat_win by exact L.
    apply (block_spec K P f g K2 PK (lx st u0) (lu st u0)). now apply lseq_starts.
  Qed.
  Lemma lseq_rec st u0 : List.length st = K -> lrec (lx st u0) (lu st u0).
  Proof. intros L. apply (lseq_starts K P f g K2 PK st u0 L). Qed.
  Lemma lx_shift st u0 n : List.length st = K -> forall i,
    lx (win K (lx st u0) n) (lu st u0 n) i = lx st u0 (n + i) /\ lu (win K (lx st u0) n) (lu st u0 n) i = lu st u0 (n + i).
  Proof.
    intros L.
    apply (starts_unique K P f g K2 PK (win K (lx st u0) n) (lu st u0 n) _ _ (shifted n (lx st u0)) (shifted n (lu st u0))).
    - apply lseq_starts; try assumption. apply win_length.
    - apply win_starts; try assumption. now apply lseq_rec.
  Qed.

  (* ------------------------------------------------ the stream *)
  Lemma win_halves x n i : (i < 2 * K)%nat -> nth_error (halves (win K x n)) i = Some (lhalf (shifted n x) (N.of_nat i)).
  Proof.
    intros H. rewrite halves_nth by (now rewrite win_length).
    assert (B : (i / 2 < K)%nat) by (apply Nat.div_lt_upper_bound; lia).
    pose proof (win_nth K x n (i / 2) B) as E. rewrite nth_err_nth in E by (now rewrite win_length). apply some_inj in E. rewrite E.
    unfold lhalf, shifted. rewrite Nat2N.inj_div, Nat2N.inj_mod. reflexivity.
  Qed.
  Definition lgood (s : lb) : Prop :=
    List.length (lb_st s) = K /\ List.length (lb_buf s) = (2 * K)%nat /\ (0 <= lb_loc s)%Z /\ fine (lb_idx s) = true.
  (* the values the generator will hand out: the rest of the buffer, then the words
     that continue the state array by the recurrence *)
  Definition outs (s : lb) (i : nat) : N :=
    let left := (2 * K - Z.to_nat (lb_loc s))%nat in
    if (i <? left)%nat then nth (Z.to_nat (lb_loc s) + i) (lb_buf s) 0
    else lhalf (lx (lb_st s) (lb_u s)) (2 * KN + N.of_nat (i - left)).
  Lemma next_outs s : lgood s -> exists s', lb_next s = Some (s', outs s 0) /\ lgood s' /\ forall i, outs s' i = outs s (S i).
  Proof.
    intros (L & B & Z0 & F). unfold lb_next. destruct (lb_loc s <? 2 * Z.of_nat K)%Z eqn:E.
    - rewrite (rd_nth _ _ 0) by lia. eexists. split.
      { f_equal. f_equal. unfold outs. replace (0 <? 2 * K - Z.to_nat (lb_loc s))%nat with true by lia. now rewrite Nat.add_0_r. }
      split; [repeat split; cbn [lb_st lb_buf lb_loc lb_idx]; assumption || lia|].
      intros i. unfold outs. cbn [lb_st lb_buf lb_loc lb_u]. replace (Z.to_nat (lb_loc s + 1)) with (S (Z.to_nat (lb_loc s))) by lia.
      destruct (i <? 2 * K - S (Z.to_nat (lb_loc s)))%nat eqn:E1.
      + replace (S i <? 2 * K - Z.to_nat (lb_loc s))%nat with true by lia. f_equal; lia.
      + replace (S i <? 2 * K - Z.to_nat (lb_loc s))%nat with false by lia. f_equal; lia.
    - rewrite F, block_wat by exact L. rewrite wat_win by exact L.
      rewrite (rd_nth _ _ 0) by (rewrite halves_length, win_length; lia).
      assert (H : forall i, (i < 2 * K)%nat -> nth i (halves (win K (lx (lb_st s) (lb_u s)) KN)) 0 = lhalf (lx (lb_st s) (lb_u s)) (2 * KN + N.of_nat i)).
      { intros i Hi. pose proof (win_halves (lx (lb_st s) (lb_u s)) KN i Hi) as A. rewrite nth_err_nth in A by (rewrite halves_length, win_length; lia).
        injection A as ->. now rewrite lhalf_add. }
      eexists. split.
      { f_equal. f_equal. change (Z.to_nat 0) with 0%nat. rewrite H by lia. unfold outs. replace (0 <? 2 * K - Z.to_nat (lb_loc s))%nat with false by lia. f_equal; lia. }
      split; [repeat split; cbn [lb_st lb_buf lb_loc lb_idx]; [apply win_length|rewrite halves_length, win_length; lia|lia|exact F]|].
      intros i. unfold outs. cbn [lb_st lb_buf lb_loc lb_u]. change (Z.to_nat 1) with 1%nat.
      replace (S i <? 2 * K - Z.to_nat (lb_loc s))%nat with false by lia.
      destruct (i <? 2 * K - 1)%nat eqn:E1.
      + rewrite H by lia. f_equal; lia.
      + rewrite (lhalf_ext _ (shifted KN (lx (lb_st s) (lb_u s)))) by (intros j; now apply lx_shift).
        rewrite <- lhalf_add. f_equal; lia.
  Qed.
  Lemma draws_outs n : forall s, lgood s -> exists s', lb_draws n s = Some (s', map (outs s) (seq 0 n)) /\ lgood s' /\ forall i, outs s' i = outs s (n + i)%nat.
  Proof.
    induction n as [|n IH]; intros s G.
    - exists s. split; [reflexivity|]. split; [exact G|reflexivity].
    - destruct (next_outs s G) as (s1 & E1 & G1 & O1). destruct (IH s1 G1) as (s2 & E2 & G2 & O2). exists s2.
      cbn [lb_draws]. rewrite E1, E2. split.
      + do 2 f_equal. cbn [seq map]. f_equal. rewrite <- seq_shift, map_map. apply map_ext. exact O1.
      + split; [exact G2|]. intros i. rewrite O2, O1. reflexivity.
  Qed.
  (* draws leave the state array and u alone until the buffer is used up *)
  Lemma next_within s s' v : lb_next s = Some (s', v) -> (lb_loc s < 2 * Z.of_nat K)%Z -> lb_st s' = lb_st s /\ lb_u s' = lb_u s /\ lb_loc s' = (lb_loc s + 1)%Z /\ lb_idx s' = lb_idx s.
  Proof.
    unfold lb_next. intros H L. replace (lb_loc s <? 2 * Z.of_nat K)%Z with true in H by lia. destruct (rd (lb_buf s) (lb_loc s)); [|discriminate].
    injection H as <- _. cbn. auto.
  Qed.

  (* ------------------------------------------------ injectivity *)
  Variables Aok Uok : N -> Prop.
  Hypothesis K3 : (3 <= K)%nat.
  Hypothesis fg_ok : forall a b c d u, Aok a -> Aok b -> Aok c -> Aok d -> Uok u -> Aok (f a b c d u) /\ Uok (g a b c d u).
  Hypothesis fg_inj : forall a a' b c d u u', Aok a -> Aok a' -> Aok b -> Aok c -> Aok d -> Uok u -> Uok u' ->
    f a b c d u = f a' b c d u' -> g a b c d u = g a' b c d u' -> a = a' /\ u = u'.
  Definition lok (s : list N * N) : Prop := List.length (fst s) = K /\ Forall Aok (fst s) /\ Uok (snd s).
  Lemma nth_ok l i : Forall Aok l -> (i < List.length l)%nat -> Aok (nth i l 0).
  Proof. intros F H. apply Forall_forall with (x := nth i l 0) in F; [exact F|]. now apply nth_In. Qed.
  Lemma wstep_ok s : lok s -> lok (wstep K P f g s).
  Proof.
    destruct s as [l u]. intros (L & F & U). cbn [fst snd] in *. unfold wstep, lok. cbn [fst snd].
    destruct (fg_ok (nth 0 l 0) (nth P l 0) (nth (K - 2) l 0) (nth (K - 1) l 0) u) as [A B]; try (apply nth_ok; [exact F|lia]); try exact U.
    split; [rewrite app_length; destruct l; cbn [tl List.length] in *; lia|]. split; [|exact B].
    apply Forall_app. split; [destruct l; [constructor|now inversion F]|constructor; [exact A|constructor]].
  Qed.
  Lemma wstep_inj s t : lok s -> lok t -> wstep K P f g s = wstep K P f g t -> s = t.
  Proof.
    destruct s as [l u], t as [m v]. intros (L & F & U) (M & G & V) E. cbn [fst snd] in *. unfold wstep in E.
    apply pair_equal_spec in E. destruct E as [E1 E2]. apply app_inj_tail in E1. destruct E1 as [T E1].
    destruct l as [|a l]; [cbn in L; lia|]. destruct m as [|b m]; [cbn in M; lia|]. cbn [tl] in T. subst m.
    cbn [List.length] in L, M.
    assert (N : forall i x, (0 < i)%nat -> nth i (x :: l) 0 = nth (i - 1) l 0) by (intros [|i] x Hi; [lia|]; cbn [nth]; f_equal; lia).
    rewrite !(N P), !(N (K - 2)%nat), !(N (K - 1)%nat) in E1, E2 by lia. cbn [nth] in E1, E2.
    assert (Fl : Forall Aok l) by now inversion F.
    assert (Q : a = b /\ u = v).
    { eapply fg_inj; [| | | | | | |exact E1|exact E2]; try (apply nth_ok; [exact Fl|lia]); try assumption; [now inversion F|now inversion G]. }
    destruct Q as [-> ->]. reflexivity.
  Qed.
  Lemma wat_lok st u0 n : lok (st, u0) -> lok (wat st u0 n).
  Proof. intros H. unfold Lagged.wat. apply (N.iter_invariant n _ (wstep K P f g) lok); [intros s Hs; now apply wstep_ok|exact H]. Qed.
  Lemma wat_inj st u0 st' u0' n : lok (st, u0) -> lok (st', u0') -> wat st u0 n = wat st' u0' n -> (st, u0) = (st', u0').
  Proof.
    intros H H'. induction n as [|n IH] using N.peano_ind; [auto|]. rewrite <- N.add_1_r, !wat_S. intros E.
    apply IH. apply wstep_inj; try (now apply wat_lok). exact E.
  Qed.
  Theorem block_inj st u0 st' u0' : lok (st, u0) -> lok (st', u0') -> lg_block K P f g st u0 = lg_block K P f g st' u0' -> (st, u0) = (st', u0').
  Proof.
    intros H H' E. pose proof (proj1 H) as L. pose proof (proj1 H') as L'. cbn [fst] in L, L'. rewrite !block_wat in E by assumption. injection E as E. now apply (wat_inj st u0 st' u0' KN).
  Qed.
  Definition sok (x u : N -> N) : Prop := (forall n, Aok (x n)) /\ (forall n, Uok (u n)).
  Lemma lseq_sok st u0 : lok (st, u0) -> sok (lx st u0) (lu st u0).
  Proof.
    intros H. split; intros n; pose proof (wat_lok st u0 n H) as (L & F & U).
    - unfold Lagged.lx. apply nth_ok; [exact F|lia].
    - exact U.
  Qed.
  Lemma sok_shifted n x u : sok x u -> sok (shifted n x) (shifted n u).
  Proof. intros [A B]. split; intros i; [apply A|apply B]. Qed.
  (* sequences that agree from m on agree everywhere *)
  Lemma lrec_back x u y v m : lrec x u -> lrec y v -> sok x u -> sok y v -> u m = v m -> (forall i, m <= i -> x i = y i) ->
    forall i, x i = y i /\ u i = v i.
  Proof.
    intros Rx Ry [Xo Uo] [Yo Vo] Um H.
    assert (G : forall k, k <= m -> u (m - k) = v (m - k) /\ forall i, m - k <= i -> x i = y i).
    { induction k as [|k IH] using N.peano_ind; intros Hk; [rewrite N.sub_0_r; split; assumption|].
      destruct (IH ltac:(lia)) as [U1 X1]. set (n := m - N.succ k). replace (m - k) with (n + 1) in * by (unfold n; lia).
      destruct (Rx n) as [A1 A2]. destruct (Ry n) as [B1 B2].
      rewrite (X1 (n + KN)), B1, (X1 (n + N.of_nat P)), (X1 (n + (KN - 2))), (X1 (n + (KN - 1))) in A1 by lia.
      rewrite U1, B2, (X1 (n + N.of_nat P)), (X1 (n + (KN - 2))), (X1 (n + (KN - 1))) in A2 by lia.
      assert (Q : y n = x n /\ v n = u n).
      { eapply fg_inj; [| | | | | | |exact A1|exact A2]; try apply Xo; try apply Yo; try apply Uo; try apply Vo. }
      destruct Q as [E1 E2].
      split; [congruence|]. intros i Hi. destruct (N.eq_dec i n) as [->|D]; [congruence|apply X1; lia]. }
    destruct (G m (N.le_refl m)) as [G1 G2]. rewrite N.sub_diag in *. intros i.
    apply (lrec_unique K P f g K2 PK x u y v Rx Ry G1). intros j _. apply G2. lia.
  Qed.

  (* ------------------------------------------------ jumps *)
  Lemma jump_st cs s : lb_jump cs (lb_reset s) = option_map lb_reset (lb_jump cs s).
  Proof. unfold lb_jump, lb_reset. cbn [lb_st lb_u lb_idx lb_buf lb_loc]. destruct (lg_jump K P f g cs (lb_st s) (lb_u s)) as [[st u]|]; reflexivity. Qed.
  Hypothesis f_lin : forall a a' b b' c c' d d' v v',
    f (N.lxor a a') (N.lxor b b') (N.lxor c c') (N.lxor d d') (N.lxor v v') = N.lxor (f a b c d v) (f a' b' c' d' v').
  Hypothesis g_lin : forall a a' b b' c c' d d' v v',
    g (N.lxor a a') (N.lxor b b') (N.lxor c c') (N.lxor d d') (N.lxor v v') = N.lxor (g a b c d v) (g a' b' c' d' v').
  Lemma jump_outs cs s : lgood s -> exists s', lb_jump cs s = Some s' /\ lgood (lb_reset s') /\
    (forall i, outs (lb_reset s') i = lhalf (lpol cs (lx (lb_st s) (lb_u s))) (2 * KN + N.of_nat i)) /\
    (forall n, lx (lb_st s') (lb_u s') n = lpol cs (lx (lb_st s) (lb_u s)) n /\ lu (lb_st s') (lb_u s') n = lpol cs (lu (lb_st s) (lb_u s)) n) /\
    List.length (lb_st s') = K.
  Proof.
    intros (L & B & Z0 & F). unfold lb_jump.
    destruct (jump_starts K P f g K2 PK f_lin g_lin (lx (lb_st s) (lb_u s)) (lu (lb_st s) (lb_u s)) (lb_st s) (lb_u s) cs) as (st & u & E & S).
    { now apply lseq_starts. }
    rewrite E. eexists. split; [reflexivity|]. cbn [lb_st lb_u]. pose proof (proj1 S) as L1.
    assert (U : forall n, lx st u n = lpol cs (lx (lb_st s) (lb_u s)) n /\ lu st u n = lpol cs (lu (lb_st s) (lb_u s)) n).
    { apply (starts_unique K P f g K2 PK st u); [now apply lseq_starts|exact S]. }
    split; [repeat split; cbn [lb_reset lb_st lb_buf lb_loc lb_idx]; assumption || lia|]. split; [|split; [exact U|exact L1]].
    intros i. unfold outs. cbn [lb_reset lb_st lb_buf lb_loc lb_u]. replace (i <? 2 * K - Z.to_nat (2 * Z.of_nat K))%nat with false by lia.
    rewrite (lhalf_ext _ (lpol cs (lx (lb_st s) (lb_u s)))) by (intros j; apply U). f_equal; lia.
  Qed.
  (* the polynomial acts on every sequence as a shift by J *)
  Definition lshifts (cs : list bool) (J : N) : Prop :=
    forall x u, sok x u -> lrec x u -> forall n, lpol cs x n = x (J + n) /\ lpol cs u n = u (J + n).

  (* jump() after n draws gives the outputs that come J later, for every n: then the
     outputs are constant from some point on, and so are the words *)
  Hypothesis observed : forall x u y v m, lrec x u -> lrec y v -> sok x u -> sok y v -> (forall i, m <= i -> x i = y i) -> exists m', m <= m' /\ u m' = v m'.
  Hypothesis joined : forall a b, Aok a -> Aok b -> trunc 64 a = trunc 64 b -> trunc 64 (N.shiftr a 64) = trunc 64 (N.shiftr b 64) -> a = b.
  Lemma jump_constant cs J st u0 idx buf :
    lok (st, u0) -> fine idx = true -> List.length buf = (2 * K)%nat ->
    (forall n s1 vs s', lb_draws n (LB st u0 idx buf (2 * Z.of_nat K)) = Some (s1, vs) -> lb_jump cs s1 = Some s' ->
       forall i, outs (lb_reset s') i = outs s1 (J + i)%nat) ->
    forall n, lx st u0 n = lx st u0 0.
  Proof.
    intros O F B H. pose proof (proj1 O) as L. cbn [fst] in L. set (s := LB st u0 idx buf (2 * Z.of_nat K)) in *.
    assert (G : lgood s) by (repeat split; cbn [s lb_st lb_buf lb_loc lb_idx]; assumption || lia).
    set (x := lx st u0).
    assert (Os : forall i, outs s i = lhalf x (2 * KN + N.of_nat i)).
    { intros i. unfold outs. cbn [s lb_st lb_buf lb_loc lb_u]. replace (i <? 2 * K - Z.to_nat (2 * Z.of_nat K))%nat with false by lia. unfold x. f_equal; lia. }
    destruct (next_outs s G) as (s1 & E1 & G1 & O1). destruct (next_outs s1 G1) as (s2 & E2 & G2 & O2).
    assert (L1 : lb_loc s1 = 1%Z).
    { revert E1. unfold lb_next. cbn [s lb_st lb_buf lb_loc lb_u lb_idx]. replace (2 * Z.of_nat K <? 2 * Z.of_nat K)%Z with false by lia. rewrite F.
      destruct (lg_block K P f g st u0) as [[arr u]|]; [|discriminate]. destruct (rd (halves arr) 0); [|discriminate]. intros E. injection E as <- _. reflexivity. }
    assert (D1 : lb_draws 1 s = Some (s1, [outs s 0])) by (cbn [lb_draws]; now rewrite E1).
    assert (D2 : lb_draws 2 s = Some (s2, [outs s 0; outs s1 0])) by (cbn [lb_draws]; now rewrite E1, E2).
    destruct (next_within s1 s2 _ E2 ltac:(lia)) as (S2 & U2 & _ & _).
    destruct (jump_outs cs s1 G1) as (t1 & J1 & _ & T1 & _). destruct (jump_outs cs s2 G2) as (t2 & J2 & _ & T2 & _).
    assert (C : forall i, lhalf x (2 * KN + N.of_nat (S (J + i))) = lhalf x (2 * KN + N.of_nat (S (S (J + i))))).
    { intros i. pose proof (H 1%nat s1 _ t1 D1 J1 i) as A1. pose proof (H 2%nat s2 _ t2 D2 J2 i) as A2.
      rewrite T1, O1, Os in A1. rewrite T2, S2, U2, O2, O1, Os in A2. rewrite <- A1, <- A2. reflexivity. }
    pose proof (lseq_starts K P f g K2 PK st u0 L) as (_ & _ & _ & R). pose proof (lseq_sok st u0 O) as Ok.
    set (m := KN + N.of_nat J + 1).
    assert (X : forall i, m <= i -> x i = x (i + 1)).
    { intros i Hi.
      assert (Q : forall a, 2 * m <= a -> lhalf x a = lhalf x (a + 1)).
      { intros a Ha. pose proof (C (N.to_nat a - 2 * K - 1 - J)%nat) as A.
        replace (2 * KN + N.of_nat (S (J + (N.to_nat a - 2 * K - 1 - J)))) with a in A by lia.
        replace (2 * KN + N.of_nat (S (S (J + (N.to_nat a - 2 * K - 1 - J))))) with (a + 1) in A by lia. exact A. }
      assert (Q0 : forall k b, b < 2 -> lhalf x (2 * k + b) = trunc 64 (N.shiftr (x k) (64 * b))).
      { intros k b Hb. unfold lhalf. replace (2 * k + b) with (b + k * 2) by lia. rewrite N.div_add, N.mod_add, N.div_small, N.mod_small by lia. reflexivity. }
      apply joined; try apply Ok.
      - rewrite <- (N.shiftr_0_r (x i)), <- (N.shiftr_0_r (x (i + 1))). change 0 with (64 * 0). rewrite <- !Q0 by lia.
        rewrite (Q (2 * i + 0)), (Q (2 * i + 0 + 1)) by lia. f_equal; lia.
      - change 64 with (64 * 1) at 2 4. rewrite <- !Q0 by lia. rewrite (Q (2 * i + 1)), (Q (2 * i + 1 + 1)) by lia. f_equal; lia. }
    assert (R' : lrec (shifted 1 x) (shifted 1 (lu st u0))) by now apply shifted_lrec.
    assert (Ok' := sok_shifted 1 _ _ Ok).
    assert (X' : forall i, m <= i -> x i = shifted 1 x i) by (intros i Hi; unfold shifted; rewrite X by exact Hi; f_equal; lia).
    destruct (observed x (lu st u0) (shifted 1 x) (shifted 1 (lu st u0)) m R R' Ok Ok' X') as (m' & M & U).
    pose proof (lrec_back x (lu st u0) (shifted 1 x) (shifted 1 (lu st u0)) m' R R' Ok Ok' U (fun i Hi => X' i (N.le_trans _ _ _ M Hi))) as All.
    intros n. induction n as [|n IH] using N.peano_ind; [reflexivity|]. destruct (All n) as [A _]. unfold shifted in A.
    fold x. replace (N.succ n) with (1 + n) by lia. rewrite <- A. exact IH.
  Qed.
End Buf.
