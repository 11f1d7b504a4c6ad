(* C72-C74: constraints, fills and broadcast fills. *)
From Coq Require Import Arith NArith ZArith QArith List Lia Bool ZifyBool ZifyNat ZifyN.
From Verif Require Import Word Py Shape Convert Complex BCast.
Import ListNotations.
Ltac Zify.zify_post_hook ::= idtac.
Open Scope N_scope.

(* ------------------------------------------------------------------- C72 *)
(* arrays are accepted exactly when every element is as a scalar; both raise ValueError *)
Theorem C72_array_is_every_element : forall c val, check_array_constraint c val = Ok tt <-> Forall (fun v => check_constraint c v = Ok tt) val.
Proof.
  assert (K : forall (p : dbl -> bool) val, (if existsb p val then @Raise unit ValueError else Ok tt) = Ok tt <-> Forall (fun v => (if p v then @Raise unit ValueError else Ok tt) = Ok tt) val).
  { intros p val. induction val as [|v val IH]; [split; [constructor|reflexivity]|]. cbn [existsb]. rewrite Forall_cons_iff, <- IH. destruct (p v), (existsb p val); cbn [orb]; intuition congruence. }
  assert (L : forall (p q : dbl -> bool) val, (if negb (forallb p val) || negb (forallb q val) then @Raise unit ValueError else Ok tt) = Ok tt <-> Forall (fun v => (if negb (p v) || negb (q v) then @Raise unit ValueError else Ok tt) = Ok tt) val).
  { intros p q val. induction val as [|v val IH]; [split; [constructor|reflexivity]|]. cbn [forallb]. rewrite Forall_cons_iff, <- IH.
    destruct (p v), (q v), (forallb p val), (forallb q val); cbn [andb orb negb]; intuition congruence. }
  assert (L1 : forall (p : dbl -> bool) val, (if negb (forallb p val) then @Raise unit ValueError else Ok tt) = Ok tt <-> Forall (fun v => (if negb (p v) then @Raise unit ValueError else Ok tt) = Ok tt) val).
  { intros p val. induction val as [|v val IH]; [split; [constructor|reflexivity]|]. cbn [forallb]. rewrite Forall_cons_iff, <- IH.
    destruct (p v), (forallb p val); cbn [andb orb negb]; intuition congruence. }
  assert (K2 : forall (p q : dbl -> bool) val, (if existsb p val then @Raise unit ValueError else if existsb q val then Raise ValueError else Ok tt) = Ok tt <-> Forall (fun v => (if p v then @Raise unit ValueError else if q v then Raise ValueError else Ok tt) = Ok tt) val).
  { intros p q val. induction val as [|v val IH]; [split; [constructor|reflexivity]|]. cbn [existsb]. rewrite Forall_cons_iff, <- IH.
    destruct (p v), (q v), (existsb p val), (existsb q val); cbn [andb orb negb]; intuition congruence. }
  assert (L2 : forall (p q : dbl -> bool) val, (if negb (forallb p val) then @Raise unit ValueError else if negb (forallb q val) then Raise ValueError else Ok tt) = Ok tt <-> Forall (fun v => (if negb (q v) then @Raise unit ValueError else if negb (p v) then Raise ValueError else Ok tt) = Ok tt) val).
  { intros p q val. induction val as [|v val IH]; [split; [constructor|reflexivity]|]. cbn [forallb]. rewrite Forall_cons_iff, <- IH.
    destruct (p v), (q v), (forallb p val), (forallb q val); cbn [andb orb negb]; intuition congruence. }
  intros c val. destruct c; cbn [check_array_constraint check_constraint]; auto. split; [intros _; now apply Forall_forall|reflexivity].
Qed.
Theorem C72_only_value_error : forall c v val e, (check_constraint c v = Raise e -> e = ValueError) /\ (check_array_constraint c val = Raise e -> e = ValueError).
Proof.
  intros c v val e. split; [destruct c; cbn [check_constraint]|destruct c; cbn [check_array_constraint]];
  repeat match goal with |- context [if ?b then _ else _] => destruct b end; congruence.
Qed.
(* What is accepted. fin: a finite number and its value; -0 and 0 have the value 0 *)
Definition valued (v : dbl) (x : Q) : Prop := exists s q, v = DFin s q /\ (0 <= q)%Q /\ x = signed s q.
Theorem C72_accepted_finite : forall c v x, valued v x ->
  (check_constraint c v = Ok tt <->
   match c with
   | CNone => True
   | CNonNegative => dneg v = false
   | CPositive | CPositiveNotNan => (0 < x)%Q
   | CBounded01 => (0 <= x <= 1)%Q
   | CBoundedGt01 => (0 < x <= 1)%Q
   | CGt1 => (1 < x)%Q
   | CGte1 => (1 <= x)%Q
   | CPoisson | CLegacyPoisson => (0 <= x <= 9223372006484770816 # 1)%Q
   end).
Proof.
  intros c v x (s & q & -> & Hq & ->). set (y := signed s q).
  assert (B : forall p r, Qle_bool p r = false <-> (r < p)%Q).
  { intros p r. split; intros H. - apply Qnot_le_lt. intros K. apply Qle_bool_iff in K. congruence. - destruct (Qle_bool p r) eqn:E; [|reflexivity]. apply Qle_bool_iff in E. exfalso. apply (Qlt_not_le _ _ H E). }
  assert (Z0 : signed false 0 = 0%Q) by reflexivity.
  assert (R : forall b : bool, (if b then @Raise unit ValueError else Ok tt) = Ok tt <-> b = false) by (intros []; split; congruence).
  destruct c; cbn [check_constraint dnan negb andb dneg]; unfold dlt, d0, d1, poisson_max, legacy_poisson_max, poisson_max; cbn [dle]; fold y; unfold signed.
  - tauto.
  - apply R.
  - rewrite R, B. reflexivity.
  - rewrite R, B. reflexivity.
  - rewrite R, orb_false_iff, !negb_false_iff, !Qle_bool_iff. reflexivity.
  - rewrite R, orb_false_iff, !negb_false_iff, andb_true_iff, negb_true_iff, !Qle_bool_iff, B. split; [tauto|]. intros [H1 H2]. split; [split; [now apply Qlt_le_weak|exact H1]|exact H2].
  - rewrite R, negb_false_iff, andb_true_iff, negb_true_iff, Qle_bool_iff, B. split; [tauto|]. intros H1. split; [now apply Qlt_le_weak|exact H1].
  - rewrite R, negb_false_iff, Qle_bool_iff. reflexivity.
  - destruct (Qle_bool 0 y) eqn:E; cbn [negb]; [apply Qle_bool_iff in E; rewrite R, negb_false_iff, Qle_bool_iff; tauto|]. apply B in E. split; [discriminate|]. intros [H _]. exfalso. apply (Qlt_not_le _ _ E H).
  - destruct (Qle_bool 0 y) eqn:E; cbn [negb]; [apply Qle_bool_iff in E; rewrite R, negb_false_iff, Qle_bool_iff; tauto|]. apply B in E. split; [discriminate|]. intros [H _]. exfalso. apply (Qlt_not_le _ _ E H).
Qed.
(* the non-negative constraint accepts every finite number that is not negative, except -0 *)
Theorem C72_non_negative_partial : forall v x, valued v x -> ~ (x == 0)%Q -> (check_constraint CNonNegative v = Ok tt <-> (0 <= x)%Q).
Proof.
  intros v x V Z. pose proof (C72_accepted_finite CNonNegative v x V) as K. cbn beta iota in K. rewrite K. destruct V as (s & q & -> & Hq & ->). cbn [dneg signed] in *. destruct s; cbn [signed] in *.
  - split; [discriminate|]. intros H. exfalso. apply Z. apply Qle_antisym; [|exact H]. apply (Qopp_le_compat 0 q) in Hq. exact Hq.
  - split; [intros _; exact Hq|reflexivity].
Qed.
Theorem C72_negative_zero_refuted : exists v x, valued v x /\ (0 <= x)%Q /\ check_constraint CNonNegative v = Raise ValueError /\ check_array_constraint CNonNegative [v] = Raise ValueError.
Proof. exists (DFin true 0), (- 0)%Q. split; [exists true, 0%Q; repeat split; discriminate|]. repeat split. discriminate. Qed.
(* no such exception for integers: 0 is accepted *)
Theorem C72_non_negative_integer : forall z, check_constraint CNonNegative (to_dbl (NI z)) = Ok tt <-> (0 <= z)%Z.
Proof. intros z. cbn [to_dbl check_constraint dnan dneg negb andb]. destruct (z <? 0)%Z eqn:E; split; try discriminate; try reflexivity; lia. Qed.
(* NaN passes the first three constraints and no other; infinities are treated as numbers beyond all
   bounds *)
Theorem C72_nan : forall c, check_constraint c DNaN = Ok tt <-> In c [CNone; CNonNegative; CPositive].
Proof. intros c. destruct c; cbn; split; intros H; try discriminate; try tauto; exfalso; intuition congruence. Qed.
Theorem C72_infinity : forall c, (check_constraint c (DInf false) = Ok tt <-> In c [CNone; CNonNegative; CPositive; CPositiveNotNan; CGt1; CGte1]) /\ (check_constraint c (DInf true) = Ok tt <-> c = CNone).
Proof. intros c. destruct c; cbn; split; split; intros H; try discriminate; try tauto; try reflexivity; exfalso; intuition congruence. Qed.
Example C72_case : check_array_constraint CBounded01 [DFin false (1 # 2); d0; d1] = Ok tt /\ check_array_constraint CBoundedGt01 [d1; d0] = Raise ValueError.
Proof. split; reflexivity. Qed.

(* ------------------------------------------------------------------- C73 *)
Section Draws.
  Context {St V : Type}.
  Lemma draws_length (f : St -> St * V) n : forall s, List.length (snd (draws f n s)) = n.
  Proof. induction n as [|n IH]; intros s; [reflexivity|]. cbn [draws]. destruct (f s) as [s1 v]. specialize (IH s1). destruct (draws f n s1) as [s2 l]. cbn [snd List.length] in *. congruence. Qed.
  Lemma draws_add (f : St -> St * V) n m : forall s, draws f (n + m) s = let '(s1, l1) := draws f n s in let '(s2, l2) := draws f m s1 in (s2, l1 ++ l2).
  Proof.
    induction n as [|n IH]; intros s; cbn [Nat.add draws]; [now destruct (draws f m s)|]. destruct (f s) as [s1 v]. rewrite IH. destruct (draws f n s1) as [s2 l]. destruct (draws f m s2) as [s3 l']. reflexivity.
  Qed.
  (* the numbers a result holds, in memory order *)
  Definition numbers (r : result V) : list V := match r with Scalar v => [v] | New _ l | Out _ l => l end.
  Definition count (size : option (list N)) (out : outarg) : N :=
    match out with OutArray a => Shape.prod (a_shape a) | _ => match size with Some sh => Shape.prod sh | None => 1 end end.

  (* Whatever the shape, a call takes as many numbers from the generator as the result has elements,
     and puts them into memory in the order drawn *)
  Theorem C73_fill : forall (f : St -> St * V) t size out s s' r, fill f t size out s = Fine (s', r) ->
    (s', numbers r) = draws f (N.to_nat (count size out)) s.
  Proof.
    intros f t size out s s' r. unfold fill, count. destruct size as [sh|], out as [|a|].
    - destruct (draws f _ s) as [s1 l]. intros H. injection H as <- <-. reflexivity.
    - destruct (check_output _ _ _ _); cbn [rbind]; try discriminate. destruct (draws f _ s) as [s1 l]. intros H. injection H as <- <-. reflexivity.
    - discriminate.
    - change (N.to_nat 1) with 1%nat. cbn [draws]. destruct (f s) as [s1 v]. intros H. injection H as <- <-. reflexivity.
    - destruct (check_output _ _ _ _); cbn [rbind]; try discriminate. destruct (draws f _ s) as [s1 l]. intros H. injection H as <- <-. reflexivity.
    - discriminate.
  Qed.
  (* without out it always succeeds, with the shape asked for *)
  Theorem C73_fill_new : forall (f : St -> St * V) t sh s, exists s' l, fill f t (Some sh) OutNone s = Fine (s', New sh l) /\ List.length l = N.to_nat (Shape.prod sh).
  Proof.
    intros f t sh s. unfold fill. pose proof (draws_length f (N.to_nat (Shape.prod sh)) s) as L. destruct (draws f _ s) as [s1 l]. exists s1, l. split; [reflexivity|exact L].
  Qed.
  (* two calls give what one call for both gives *)
  Theorem C73_split : forall (f : St -> St * V) t sh1 sh2 sh s s1 s2 s3 r1 r2 r, Shape.prod sh = Shape.prod sh1 + Shape.prod sh2 ->
    fill f t (Some sh1) OutNone s = Fine (s1, r1) -> fill f t (Some sh2) OutNone s1 = Fine (s2, r2) -> fill f t (Some sh) OutNone s = Fine (s3, r) ->
    s3 = s2 /\ numbers r = numbers r1 ++ numbers r2.
  Proof.
    intros f t sh1 sh2 sh s s1 s2 s3 r1 r2 r P A B C. apply C73_fill in A, B, C. unfold count in A, B, C. rewrite P in C.
    replace (N.to_nat (Shape.prod sh1 + Shape.prod sh2)) with (N.to_nat (Shape.prod sh1) + N.to_nat (Shape.prod sh2))%nat in C by lia.
    rewrite draws_add, <- A, <- B in C. injection C as -> ->. split; reflexivity.
  Qed.
  (* an output array is used exactly when it is contiguous in one order, writable, aligned, native, of
     the right type and of the size given if any; it holds the numbers then *)
  Theorem C73_out : forall (f : St -> St * V) t size a s,
    (a_ok a = true /\ (a_c a = true \/ a_f a = true) /\ a_dtype a = t /\ (forall sh, size = Some sh -> sh = a_shape a) ->
     exists s' l, fill f t size (OutArray a) s = Fine (s', Out a l) /\ (s', l) = draws f (N.to_nat (Shape.prod (a_shape a))) s) /\
    ((exists x, fill f t size (OutArray a) s = Fine x) -> a_ok a = true /\ (a_c a = true \/ a_f a = true) /\ a_dtype a = t /\ (forall sh, size = Some sh -> sh = a_shape a)).
  Proof.
    intros f t size a s. assert (D : forall x y, dtype_eqb x y = true <-> x = y) by (intros [] []; cbn; split; congruence).
    assert (E : fill f t size (OutArray a) s = rbind (check_output (OutArray a) t size false) (fun _ => let '(s1, l) := draws f (N.to_nat (Shape.prod (a_shape a))) s in Fine (s1, Out a l))) by (unfold fill; destruct size; reflexivity).
    rewrite E. cbn [check_output]. destruct (a_ok a); destruct (a_c a), (a_f a); cbn [andb orb negb rbind];
      try (split; [intros (H & H' & _); exfalso; intuition congruence|intros [x H]; discriminate H]).
    all: destruct (dtype_eqb (a_dtype a) t) eqn:T; cbn [negb rbind]; [apply D in T|split; [intros (_ & _ & H & _); apply D in H; congruence|intros [x H]; discriminate H]].
    all: destruct size as [sh|]; [destruct (list_eq_dec N.eq_dec sh (a_shape a)) as [Q|Q]; cbn [rbind]|cbn [rbind]].
    all: try (split; [intros (_ & _ & _ & H); exfalso; apply Q, H; reflexivity|intros [x H]; discriminate H]).
    all: destruct (draws f _ s) as [s1 l]; split; [intros _; exists s1, l; split; reflexivity|intros _; repeat split; try tauto; try exact T; intros sh' H; congruence].
  Qed.
  (* uintegers: sizes as above, and bits other than 64 and 32 raise *)
  Theorem C73_uintegers : forall (n64 n32 : St -> St * V) size s,
    (exists s' r, uintegers n64 n32 size 64 s = Fine (s', r) /\ (s', numbers r) = draws n64 (N.to_nat (count size OutNone)) s) /\
    (exists s' r, uintegers n64 n32 size 32 s = Fine (s', r) /\ (s', numbers r) = draws n32 (N.to_nat (count size OutNone)) s) /\
    forall bits, bits <> 64%Z -> bits <> 32%Z -> uintegers n64 n32 size bits s = Raises ValueError.
  Proof.
    intros n64 n32 size s.
    assert (K : forall f : St -> St * V, exists s' r, fill f OtherType size OutNone s = Fine (s', r) /\ (s', numbers r) = draws f (N.to_nat (count size OutNone)) s).
    { intros f. assert (X : exists p, fill f OtherType size OutNone s = Fine p) by (unfold fill; destruct size as [sh|]; [destruct (draws f _ s) as [s1 l]|destruct (f s) as [s1 l]]; eexists; reflexivity).
      destruct X as [[s' r] X]. exists s', r. split; [exact X|]. eapply C73_fill. exact X. }
    unfold uintegers. split; [apply K|]. split; [apply K|]. intros bits A B. destruct (bits =? 64)%Z eqn:E; [lia|]. destruct (bits =? 32)%Z eqn:F; [lia|]. reflexivity.
  Qed.
  (* random: every type takes the numbers in order *)
  Theorem C73_random_partial : forall (nd nf nl : St -> St * V) size t out s s' r, random nd nf nl size t out s = Fine (s', r) ->
    t <> OtherType /\ (s', numbers r) = draws (match t with F64 => nd | F32 => nf | _ => nl end) (N.to_nat (count size out)) s.
  Proof.
    intros nd nf nl size t out s s' r. unfold random. destruct t; intros H.
    - split; [discriminate|]. eapply C73_fill. exact H.
    - split; [discriminate|]. eapply C73_fill. exact H.
    - split; [discriminate|]. unfold fill_long in H. destruct (check_output _ _ _ _); cbn [rbind] in H; try discriminate H. destruct (_ <=? _); [discriminate H|]. eapply C73_fill. exact H.
    - discriminate H.
  Qed.
  (* long doubles in arrays of 2^31 elements or more: the counter overflows *)
  Theorem C73_long_double_overflow_refuted : forall (nd nf nl : St -> St * V) sh s, 2 ^ 31 <= Shape.prod sh -> random nd nf nl (Some sh) F80 OutNone s = Undefined.
  Proof. intros nd nf nl sh s H. cbn [random]. unfold fill_long. cbn [check_output rbind]. destruct (2 ^ 31 <=? Shape.prod sh) eqn:E; [reflexivity|lia]. Qed.
  (* an out that is no array is not rejected *)
  Theorem C73_out_not_an_array_refuted : forall (nd nf nl : St -> St * V) size t s, t <> OtherType -> random nd nf nl size t OutOther s = Undefined.
  Proof. intros nd nf nl size t s H. destruct t; [| | |congruence]; cbn [random]; unfold fill_long, fill; destruct size; reflexivity. Qed.
End Draws.
(* Element (i, j) of a Fortran-ordered m by n array is at i + m j in memory, of a C-ordered one at
   n i + j: random(out=a) for such an array is not random(size=a.shape) *)
Theorem C73_fortran_out_refuted : exists a (f : N -> N * N) s' l s'' l',
  a_f a = true /\ a_shape a = [2; 2] /\ fill f F64 None (OutArray a) 0 = Fine (s', Out a l) /\ fill f F64 (Some [2; 2]) OutNone 0 = Fine (s'', New [2; 2] l') /\
  nth (0 + 2 * 1) l 0 <> nth (2 * 0 + 1) l' 0.
Proof.
  exists {| a_c := false; a_f := true; a_ok := true; a_dtype := F64; a_shape := [2; 2] |}, (fun s => (s + 1, s)). do 4 eexists.
  split; [reflexivity|]. split; [reflexivity|]. split; [reflexivity|]. split; [reflexivity|]. discriminate.
Qed.
Example C73_case : fill (fun s : N => (s + 1, s)) F64 (Some [2; 3]) OutNone 5 = Fine (11, New [2; 3] [5; 6; 7; 8; 9; 10]).
Proof. reflexivity. Qed.

(* ------------------------------------------------------------------- C74 *)
Section Broadcast.
  Context {St V : Type} (f : St -> list num -> St * V).
  (* the k-th number is drawn from the state after k draws, with the parameters args k *)
  Fixpoint drawn_with (args : N -> list num) (k : N) (n : nat) (s : St) : St * list V :=
    match n with O => (s, []) | S n => let '(s1, v) := f s (args k) in let '(s2, l) := drawn_with args (k + 1) n s1 in (s2, v :: l) end.
  (* the parameters that broadcast to element k of an array of shape sh *)
  Definition own (sh : list N) (ps : list (@param)) (k : N) : list num := map (fun p => p_at p (pick (p_shape p) (unravel sh k))) ps.
  Lemma bc_loop_drawn it ps n : forall k s, bc_loop f it ps k n s = drawn_with (own it ps) k n s.
  Proof. induction n as [|n IH]; intros k s; [reflexivity|]. cbn [bc_loop drawn_with]. unfold own at 1. destruct (f s _) as [s1 v]. now rewrite IH. Qed.
  Lemma drawn_const args a n : (forall k, args k = a) -> forall k s, drawn_with args k n s = draws (fun s => f s a) n s.
  Proof. intros H. induction n as [|n IH]; intros k s; [reflexivity|]. cbn [drawn_with draws]. rewrite H. destruct (f s a) as [s1 v]. now rewrite IH. Qed.
  Lemma bc_all_to sh shs : Forall (fun x => bto x sh) shs -> bc_all sh shs = Some sh.
  Proof. induction 1 as [|x shs B F IH]; [reflexivity|]. cbn [bc_all]. now rewrite np_broadcast_comm, (bto_broadcast _ _ B). Qed.

  (* With a size (or an output array) that every parameter broadcasts to, element k is drawn with its
     own parameters *)
  Theorem C74_own_parameters_partial : forall sh ps s, Forall (fun p => bto (p_shape p) sh) ps -> check_arrays ps = Ok tt ->
    exists s' l, bc_fill f (Some sh) ps OutNone s = Fine (s', New sh l) /\ (s', l) = drawn_with (own sh ps) 0 (N.to_nat (Shape.prod sh)) s.
  Proof.
    intros sh ps s B C. unfold bc_fill. rewrite C. cbn [of_outcome rbind]. rewrite bc_all_to by (apply Forall_map; exact B). rewrite N.ltb_irrefl, bc_loop_drawn.
    destruct (drawn_with _ _ _ _) as [s1 l]. exists s1, l. split; reflexivity.
  Qed.
  Lemma bc_all_bto shs : forall acc sh, bc_all acc shs = Some sh -> bto acc sh /\ Forall (fun x => bto x sh) shs.
  Proof.
    induction shs as [|x shs IH]; intros acc sh H; cbn [bc_all] in H.
    - injection H as <-. split; [|constructor]. exists [], acc. split; [reflexivity|]. clear. induction acc; constructor; tauto.
    - destruct (np_broadcast acc x) as [y|] eqn:E; [|discriminate H]. apply IH in H. destruct H as [A B]. apply np_broadcast_to in E. destruct E as [E1 E2].
      split; [eapply bto_trans; eassumption|]. constructor; [eapply bto_trans; eassumption|exact B].
  Qed.
  (* without a size: the same for the broadcast shape *)
  Theorem C74_no_size : forall ps sh s, bc_all [] (map p_shape ps) = Some sh -> check_arrays ps = Ok tt ->
    exists s' l, bc_fill f None ps OutNone s = Fine (s', New sh l) /\ (s', l) = drawn_with (own sh ps) 0 (N.to_nat (Shape.prod sh)) s.
  Proof.
    intros ps sh s B C. pose proof (bc_all_bto _ _ _ B) as [_ F]. rewrite Forall_map in F. unfold bc_fill. rewrite C. cbn [of_outcome rbind]. rewrite B, bc_all_to by (apply Forall_map; exact F).
    rewrite N.ltb_irrefl, bc_loop_drawn. destruct (drawn_with _ _ _ _) as [s1 l]. exists s1, l. split; reflexivity.
  Qed.
  (* Arrays that hold one value everywhere give the numbers that the scalars give *)
  Definition spread (p : @param) (sh : list N) : @param := {| p_shape := sh; p_at := fun _ => p_at p 0; p_cons := p_cons p |}.
  Theorem C74_constant_arrays : forall t ps sh shs s, Forall (fun p => p_shape p = []) ps -> List.length shs = List.length ps -> Forall (fun x => bto x sh) shs ->
    check_scalars ps = Ok tt -> let qs := map (fun '(p, x) => spread p x) (combine ps shs) in forallb p_scalar qs = false ->
    exists s' l, cont t f (Some sh) ps OutNone s = Fine (s', New sh l) /\ cont t f (Some sh) qs OutNone s = Fine (s', New sh l).
  Proof.
    intros t ps sh shs s P L B C qs Q. unfold cont. cbn [check_output rbind]. rewrite Q.
    assert (S : forallb p_scalar ps = true) by (apply forallb_forall; intros p I; rewrite Forall_forall in P; unfold p_scalar; now rewrite (P p I)). rewrite S, C. cbn [of_outcome rbind].
    assert (F : Forall (fun p => bto (p_shape p) sh) qs).
    { unfold qs. rewrite Forall_map. apply Forall_forall. intros [p x] I. apply in_combine_r in I. rewrite Forall_forall in B. exact (B x I). }
    assert (K : check_arrays qs = Ok tt).
    { unfold qs. clear Q B F P S qs. revert shs L C. induction ps as [|p ps IH]; intros [|x shs] L C; try discriminate L; [reflexivity|]. cbn [combine map check_arrays]. cbn [check_scalars] in C.
      destruct (check_constraint (p_cons p) (to_dbl (p_at p 0))) as [[]|] eqn:E; [|discriminate C]. cbn [obind] in C.
      assert (A : check_array_constraint (p_cons (spread p x)) (p_elements (spread p x)) = Ok tt).
      { apply C72_array_is_every_element. unfold p_elements. rewrite Forall_map. apply Forall_forall. intros i _. exact E. }
      rewrite A. cbn [obind]. apply IH; [now injection L|exact C]. }
    replace (match qs with [_] => OutNone | _ => OutNone end) with OutNone by (destruct qs as [|? []]; reflexivity).
    destruct (C74_own_parameters_partial sh qs s F K) as (s' & l & E & D). rewrite E.
    rewrite (drawn_const (own sh qs) (map (fun p => p_at p 0) ps)) in D.
    - rewrite <- D. exists s', l. split; reflexivity.
    - intros k. unfold own, qs. rewrite map_map. clear -L. revert shs L. induction ps as [|p ps IH]; intros [|x shs] L; try discriminate L; [reflexivity|]. cbn [combine map]. f_equal. apply IH. now injection L.
  Qed.
  (* the same for disc *)
  Theorem C74_disc_is_cont : forall t size ps s, disc f size ps s = cont t f size ps OutNone s.
  Proof.
    intros t size ps s. unfold disc, cont. cbn [check_output rbind]. destruct (forallb p_scalar ps).
    - destruct (check_scalars ps); cbn [of_outcome rbind]; [|reflexivity]. destruct size; reflexivity.
    - destruct ps as [|? []]; reflexivity.
  Qed.
  (* a scalar call is the first element of an array call *)
  Theorem C74_scalar_is_first : forall t ps s s' v, cont t f None ps OutNone s = Fine (s', Scalar v) -> cont t f (Some [1]) ps OutNone s = Fine (s', New [1] [v]).
  Proof.
    intros t ps s s' v. unfold cont. cbn [check_output rbind]. destruct (forallb p_scalar ps).
    - destruct (check_scalars ps); cbn [of_outcome rbind]; [|discriminate]. change (N.to_nat (Shape.prod [1])) with 1%nat. cbn [draws]. destruct (f s _) as [s1 w]. intros H. injection H as <- <-. reflexivity.
    - replace (match ps with [_] => OutNone | _ => OutNone end) with OutNone by (destruct ps as [|? []]; reflexivity). unfold bc_fill.
      destruct (check_arrays ps); cbn [of_outcome rbind]; [|discriminate]. destruct (bc_all [] _) as [sh|]; [|discriminate]. destruct (bc_all sh _) as [it|]; [|discriminate].
      destruct (_ <? _); [discriminate|]. destruct (bc_loop _ _ _ _ _ _) as [s1 l]. discriminate.
  Qed.
  (* array parameters that break a constraint raise ValueError, and draw nothing *)
  Theorem C74_constraints : forall size ps out s x, bc_fill f size ps out s = Fine x -> Forall (fun p => Forall (fun v => check_constraint (p_cons p) v = Ok tt) (p_elements p)) ps.
  Proof.
    intros size ps out s x. unfold bc_fill. destruct (check_arrays ps) as [[]|] eqn:E; cbn [of_outcome rbind]; [|discriminate]. intros _. induction ps as [|p ps IH]; [constructor|].
    cbn [check_arrays] in E. destruct (check_array_constraint (p_cons p) (p_elements p)) as [[]|] eqn:A; [|discriminate E]. cbn [obind] in E. constructor; [now apply C72_array_is_every_element|now apply IH].
  Qed.
  (* An output array in Fortran order is taken without parameters, and refused with any parameter *)
  Theorem C74_out_order : forall t p ps a size s, a_c a = false ->
    cont t f size (p :: ps) (OutArray a) s = Raises ValueError /\
    (a_f a = true -> a_ok a = true -> a_dtype a = t -> exists s' l, cont t f None [] (OutArray a) s = Fine (s', Out a l) /\ List.length l = N.to_nat (Shape.prod (a_shape a))).
  Proof.
    intros t p ps a size s C. unfold cont, check_output. rewrite C. cbn [andb orb negb]. rewrite andb_false_r. split; [reflexivity|]. intros -> -> <-. cbn [andb negb].
    replace (dtype_eqb (a_dtype a) (a_dtype a)) with true by now destruct (a_dtype a). cbn [negb rbind forallb check_scalars of_outcome].
    destruct (draws _ (N.to_nat (Shape.prod (a_shape a))) s) as [s' l] eqn:E. exists s', l. split; [reflexivity|]. pose proof (f_equal (fun x => List.length (snd x)) E) as L. cbn [snd] in L. rewrite <- L. apply draws_length.
  Qed.
  (* The output array is not used when there are two or three array parameters: the result is a new
     array *)
  Theorem C74_out_ignored_refuted : forall p1 p2 ps a t size s x, cont t f size (p1 :: p2 :: ps) (OutArray a) s = Fine x -> forallb p_scalar (p1 :: p2 :: ps) = false -> exists s' sh l, x = (s', New sh l).
  Proof.
    intros p1 p2 ps a t size s x. unfold cont. destruct (check_output _ _ _ _); cbn [rbind]; try discriminate. intros H E. rewrite E in H. unfold bc_fill in H.
    destruct (check_arrays _); cbn [of_outcome rbind] in H; [|discriminate H]. destruct (match size with Some sh => Some sh | None => _ end) as [sh|]; [|discriminate H].
    destruct (bc_all sh _) as [it|]; [|discriminate H]. destruct (_ <? _); [discriminate H|]. destruct (bc_loop _ _ _ _ _ _) as [s1 l]. injection H as <-. exists s1, sh, l. reflexivity.
  Qed.
  (* A size that the parameters do not broadcast to: accepted, element 1 gets element 1 *)
  Theorem C74_size_not_checked_refuted : forall c at_, check_array_constraint c [to_dbl (at_ 0); to_dbl (at_ 1)] = Ok tt ->
    let p := {| p_shape := [2]; p_at := at_; p_cons := c |} in
    forall s, let '(s1, v0) := f s [at_ 0] in let '(s2, v1) := f s1 [at_ 1] in let '(s3, v2) := f s2 [at_ 0] in
    ~ bto [2] [3; 1] /\ bc_fill f (Some [3; 1]) [p] OutNone s = Fine (s3, New [3; 1] [v0; v1; v2]).
  Proof.
    intros c at_ C p s. destruct (f s [at_ 0]) as [s1 v0] eqn:E0. destruct (f s1 [at_ 1]) as [s2 v1] eqn:E1. destruct (f s2 [at_ 0]) as [s3 v2] eqn:E2.
    split; [intros B; apply bto_broadcast in B; vm_compute in B; discriminate B|]. unfold bc_fill, p. cbn [check_arrays p_cons].
    change (p_elements _) with [to_dbl (at_ 0); to_dbl (at_ 1)]. rewrite C. cbn [obind of_outcome rbind map p_shape]. change (bc_all [3; 1] [[2]]) with (Some [3; 2]). cbn beta iota.
    change (Shape.prod [3; 2] <? Shape.prod [3; 1]) with false. cbn beta iota. change (N.to_nat (Shape.prod [3; 1])) with 3%nat. cbn [bc_loop map p_at p_shape].
    change (pick [2] (unravel [3; 2] 0)) with 0. change (pick [2] (unravel [3; 2] (0 + 1))) with 1. change (pick [2] (unravel [3; 2] (0 + 1 + 1))) with 0.
    rewrite E0, E1, E2. reflexivity.
  Qed.
  (* an empty parameter with a size of one element: the loop reads an element of the empty array *)
  Theorem C74_empty_parameter_refuted : forall c at_ s, bc_fill f (Some [1]) [{| p_shape := [0]; p_at := at_; p_cons := c |}] OutNone s = Undefined.
  Proof. intros c at_ s. unfold bc_fill. cbn [check_arrays p_cons]. change (p_elements _) with (@nil dbl). destruct c; reflexivity. Qed.
End Broadcast.
Example C74_case :
  let p := {| p_shape := [2]; p_at := fun k => NI (Z.of_N k + 1); p_cons := CPositive |} in
  cont F64 (fun (s : N) a => (s + 1, (s, a))) (Some [2; 2]) [p] OutNone 0 = Fine (4, New [2; 2] [(0, [NI 1]); (1, [NI 2]); (2, [NI 1]); (3, [NI 2])]).
Proof. reflexivity. Qed.

Print Assumptions C72_array_is_every_element.
Print Assumptions C72_only_value_error.
Print Assumptions C72_accepted_finite.
Print Assumptions C72_non_negative_partial.
Print Assumptions C72_negative_zero_refuted.
Print Assumptions C72_non_negative_integer.
Print Assumptions C72_nan.
Print Assumptions C72_infinity.
Print Assumptions C73_fill.
Print Assumptions C73_fill_new.
Print Assumptions C73_split.
Print Assumptions C73_out.
Print Assumptions C73_uintegers.
Print Assumptions C73_random_partial.
Print Assumptions C73_long_double_overflow_refuted.
Print Assumptions C73_out_not_an_array_refuted.
Print Assumptions C73_fortran_out_refuted.
Print Assumptions C74_own_parameters_partial.
Print Assumptions C74_no_size.
Print Assumptions C74_constant_arrays.
Print Assumptions C74_disc_is_cont.
Print Assumptions C74_scalar_is_first.
Print Assumptions C74_constraints.
Print Assumptions C74_out_order.
Print Assumptions C74_out_ignored_refuted.
Print Assumptions C74_size_not_checked_refuted.
Print Assumptions C74_empty_parameter_refuted.
