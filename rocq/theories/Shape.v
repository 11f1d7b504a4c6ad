(* Shapes: broadcast_shape and the shape logic of multivariate_normal in generator.pyx *)
From Coq Require Import Arith NArith List Lia Bool ZifyBool ZifyNat ZifyN.
Import ListNotations.
Open Scope N_scope.

(* generator.pyx:54-61: the loop over zip(x, y); shape is accumulated, and left as it is
   where the loop breaks *)
Fixpoint bs_loop (strict : bool) (x y shape : list N) : bool * list N :=
  match x, y with
  | xs :: x, ys :: y =>
      if (xs =? ys) || (negb strict && (N.min xs ys =? 1)) then bs_loop strict x y (shape ++ [N.max xs ys]) else (false, shape)
  | _, _ => (true, shape)
  end.
(* generator.pyx:41-62 broadcast_shape *)
Definition broadcast_shape (x y : list N) (strict : bool) : bool * list N :=
  if (length x =? 0)%nat || (length y =? 0)%nat then
    if (length y <? length x)%nat then (true, x) else (true, y)
  else
    let lx := length x in
    let ly := length y in
    if (ly <? lx)%nat then bs_loop strict (skipn (lx - ly) x) y (firstn (lx - ly) x)
    else bs_loop strict x (skipn (ly - lx) y) (firstn (ly - lx) y).

(* NumPy's rule: shapes are aligned at the end, missing dimensions count as 1, and
   two dimensions go together if they are equal or one of them is 1 *)
Definition np_dim (x y : N) : option N :=
  if x =? y then Some x else if x =? 1 then Some y else if y =? 1 then Some x else None.
Fixpoint np_zip (x y : list N) : option (list N) :=
  match x, y with
  | [], [] => Some []
  | a :: x, b :: y => match np_dim a b, np_zip x y with Some c, Some z => Some (c :: z) | _, _ => None end
  | _, _ => None
  end.
Definition padded (n : nat) (x : list N) : list N := repeat 1 (n - length x) ++ x.
Definition np_broadcast (x y : list N) : option (list N) :=
  let n := Nat.max (length x) (length y) in np_zip (padded n x) (padded n y).

Fixpoint prod (l : list N) : N := match l with [] => 1 | x :: l => x * prod l end.

(* generator.pyx:519-535: size against the broadcast shape of mean and cov; the loop
   over zip(size[-k:], out_shape); None: ValueError *)
Fixpoint mvn_fit (error : bool) (sz os acc : list N) : option (list N) :=
  match sz, os with
  | s :: sz, o :: os => if error || negb ((s =? 1) || (o =? 1) || (s =? o)) then None else mvn_fit error sz os (acc ++ [N.max s o])
  | _, _ => Some acc
  end.
Definition mvn_size (size : option (list N)) (os : list N) : option (list N) :=
  match size with
  | None => Some os
  | Some sz =>
      let k := length os in
      let cut := (length sz - k)%nat in          (* size[:-k] and size[-k:], k > 0 *)
      mvn_fit (length sz <? k)%nat (skipn cut sz) os (firstn cut sz)
  end.
Definition at_least_1d (b : list N) : list N := match b with [] => [1] | _ => b end.
(* generator.pyx:505-541 multivariate_normal for a mean of shape mb + (n,) and a cov of
   shape cb + (n, n): the shape of the normals that are drawn, without the last two
   dimensions (1, n), and the shape of the result *)
Definition mvn_draw (mb cb : list N) (size : option (list N)) : option (list N) :=
  match np_broadcast (at_least_1d mb) (at_least_1d cb) with
  | None => None
  | Some os => mvn_size size os
  end.
Definition mvn_shape (mb cb : list N) (n : N) (size : option (list N)) : option (list N) :=
  match mvn_draw mb cb size with
  | None => None
  | Some out =>
      match np_broadcast out (at_least_1d cb) with      (* np.matmul(out, _factors) *)
      | None => None
      | Some p =>
          match np_broadcast (at_least_1d mb) p with    (* mean + prod *)
          | None => None
          | Some f => match mb, cb, f with
                      | [], [], 1 :: f => Some (f ++ [n])    (* drop_dims *)
                      | _, _, _ => Some (f ++ [n])
                      end
          end
      end
  end.

(* ------------------------------------------------ facts *)
Lemma Forall2_length {A B} (R : A -> B -> Prop) a b : Forall2 R a b -> length a = length b.
Proof. induction 1; cbn [length]; congruence. Qed.
Lemma np_dim_same x : np_dim x x = Some x.
Proof. unfold np_dim. now rewrite N.eqb_refl. Qed.
Lemma np_dim_1l x : np_dim 1 x = Some x.
Proof. unfold np_dim. destruct (1 =? x) eqn:E; [f_equal; lia|reflexivity]. Qed.
Lemma np_zip_repeat x : np_zip (repeat 1 (length x)) x = Some x.
Proof. induction x as [|a x IH]; [reflexivity|]. cbn [length repeat np_zip]. now rewrite np_dim_1l, IH. Qed.
Lemma np_zip_app a b c d e : np_zip a b = Some e -> np_zip (a ++ c) (b ++ d) = option_map (app e) (np_zip c d).
Proof.
  revert b e. induction a as [|x a IH]; intros [|y b] e H; try discriminate H.
  - injection H as <-. cbn [app]. destruct (np_zip c d); reflexivity.
  - cbn [np_zip] in H. destruct (np_dim x y) as [z|] eqn:D; [|discriminate H]. destruct (np_zip a b) as [w|] eqn:E; [|discriminate H]. injection H as <-.
    cbn [app np_zip]. rewrite D, (IH b w E). destruct (np_zip c d); reflexivity.
Qed.
Lemma np_dim_comm x y : np_dim x y = np_dim y x.
Proof. unfold np_dim. rewrite (N.eqb_sym y x). destruct (x =? y) eqn:E; [f_equal; lia|]. destruct (x =? 1) eqn:F, (y =? 1) eqn:G; try reflexivity. lia. Qed.
Lemma np_zip_comm x : forall y, np_zip x y = np_zip y x.
Proof. induction x as [|a x IH]; intros [|b y]; try reflexivity. cbn [np_zip]. now rewrite np_dim_comm, IH. Qed.
Lemma np_broadcast_comm x y : np_broadcast x y = np_broadcast y x.
Proof. unfold np_broadcast. rewrite Nat.max_comm. apply np_zip_comm. Qed.
Lemma np_broadcast_split pre x y : length x = length y -> np_broadcast (pre ++ x) y = option_map (app pre) (np_zip x y).
Proof.
  intros L. unfold np_broadcast. rewrite Nat.max_l by (rewrite app_length; lia). unfold padded. rewrite Nat.sub_diag. cbn [repeat app].
  replace (length (pre ++ x) - length y)%nat with (length pre) by (rewrite app_length; lia).
  apply np_zip_app. rewrite np_zip_comm. apply np_zip_repeat.
Qed.
Lemma np_broadcast_split_r pre x y : length x = length y -> np_broadcast x (pre ++ y) = option_map (app pre) (np_zip x y).
Proof. intros L. rewrite np_broadcast_comm, np_broadcast_split by congruence. now rewrite np_zip_comm. Qed.
(* a broadcasts to b *)
Definition bto (a b : list N) : Prop := exists pre b', b = pre ++ b' /\ Forall2 (fun x y => x = y \/ x = 1) a b'.
Lemma zip_to a : forall b, Forall2 (fun x y => x = y \/ x = 1) a b -> np_zip a b = Some b.
Proof.
  induction a as [|x a IH]; intros b F; inversion F as [|? y ? b' H F']; subst; [reflexivity|]. cbn [np_zip]. rewrite (IH b' F').
  destruct H as [->| ->]; [now rewrite np_dim_same|now rewrite np_dim_1l].
Qed.
Lemma bto_broadcast a b : bto a b -> np_broadcast a b = Some b.
Proof.
  intros (pre & b' & -> & F). assert (L : length a = length b') by (eapply Forall2_length; exact F).
  rewrite np_broadcast_split_r by exact L. now rewrite (zip_to a b' F).
Qed.
Lemma np_dim_to a b c : np_dim a b = Some c -> (a = c \/ a = 1) /\ (b = c \/ b = 1).
Proof.
  unfold np_dim. destruct (a =? b) eqn:E; [intros H; injection H as <-; lia|]. destruct (a =? 1) eqn:F; [intros H; injection H as <-; lia|].
  destruct (b =? 1) eqn:G; [intros H; injection H as <-; lia|discriminate].
Qed.
Lemma np_zip_to a : forall b c, np_zip a b = Some c -> Forall2 (fun x y => x = y \/ x = 1) a c /\ Forall2 (fun x y => x = y \/ x = 1) b c.
Proof.
  induction a as [|x a IH]; intros [|y b] c H; try discriminate H; [injection H as <-; split; constructor|].
  cbn [np_zip] in H. destruct (np_dim x y) as [z|] eqn:D; [|discriminate H]. destruct (np_zip a b) as [w|] eqn:E; [|discriminate H]. injection H as <-.
  destruct (IH b w E) as [A B]. destruct (np_dim_to _ _ _ D) as [C1 C2]. split; constructor; assumption.
Qed.
Lemma forall2_skip (R : N -> N -> Prop) p a : forall c, Forall2 R (p ++ a) c -> exists pre c', c = pre ++ c' /\ Forall2 R a c'.
Proof.
  induction p as [|x p IH]; intros c F; [exists [], c; split; [reflexivity|exact F]|]. inversion F as [|? y ? c' _ F']; subst.
  destruct (IH c' F') as (pre & c2 & -> & G). exists (y :: pre), c2. split; [reflexivity|exact G].
Qed.
Lemma np_broadcast_to a b c : np_broadcast a b = Some c -> bto a c /\ bto b c.
Proof.
  unfold np_broadcast. intros H. apply np_zip_to in H. destruct H as [A B]. split; eapply forall2_skip; eassumption.
Qed.
Lemma bto_trans a b c : bto a b -> bto b c -> bto a c.
Proof.
  intros (p & b' & -> & F) (q & c' & -> & G). destruct (forall2_skip _ p b' c' G) as (r & c2 & -> & G2). exists (q ++ r), c2. split; [now rewrite app_assoc|].
  clear - F G2. revert c2 G2. induction F as [|x y a b' H F IH]; intros c2 G; inversion G as [|? z ? c3 K G']; subst; [constructor|].
  constructor; [destruct H as [->| ->]; [exact K|now right]|now apply IH].
Qed.
Lemma bto_length a b : bto a b -> (length a <= length b)%nat.
Proof. intros (p & b' & -> & F). apply Forall2_length in F. rewrite app_length. lia. Qed.

(* broadcast_shape for shapes of the same length *)
Fixpoint zo_free (x y : list N) : bool :=
  match x, y with
  | a :: x, b :: y => negb (((a =? 0) && (b =? 1)) || ((a =? 1) && (b =? 0))) && zo_free x y
  | _, _ => true
  end.
Lemma bs_loop_false x : forall y shape, length x = length y ->
  match np_zip x y with
  | Some z => if zo_free x y then bs_loop false x y shape = (true, shape ++ z) else fst (bs_loop false x y shape) = false
  | None => fst (bs_loop false x y shape) = false
  end.
Proof.
  induction x as [|a x IH]; intros [|b y] shape L; try discriminate L; [cbn; now rewrite app_nil_r|].
  cbn [np_zip bs_loop zo_free negb andb]. injection L as L. specialize (IH y).
  assert (C : np_dim a b = if (a =? b) || (N.min a b =? 1) then Some (N.max a b) else if ((a =? 0) && (b =? 1)) || ((a =? 1) && (b =? 0)) then Some 0 else None).
  { unfold np_dim. destruct (a =? b) eqn:E; cbn [orb]; [f_equal; lia|]. destruct (a =? 1) eqn:F; [|destruct (b =? 1) eqn:G].
    - destruct (N.min a b =? 1) eqn:M; [f_equal; lia|]. replace (b =? 0) with true by lia. rewrite andb_false_r || idtac. destruct (a =? 0) eqn:A; [lia|]. cbn [andb orb]. f_equal; lia.
    - destruct (N.min a b =? 1) eqn:M; [f_equal; lia|]. replace (a =? 0) with true by lia. cbn [andb orb]. f_equal; lia.
    - destruct (N.min a b =? 1) eqn:M; [lia|]. rewrite andb_false_r. reflexivity. }
  rewrite C. destruct ((a =? b) || (N.min a b =? 1)) eqn:E.
  - specialize (IH (shape ++ [N.max a b]) L). destruct (np_zip x y) as [z|]; [|exact IH].
    replace (negb ((a =? 0) && (b =? 1) || (a =? 1) && (b =? 0))) with true by lia. cbn [andb]. destruct (zo_free x y); [|exact IH].
    rewrite IH, <- app_assoc. reflexivity.
  - destruct ((a =? 0) && (b =? 1) || (a =? 1) && (b =? 0)); [|destruct (np_zip x y); reflexivity]. cbn [negb andb]. destruct (np_zip x y); reflexivity.
Qed.
Lemma bs_loop_true x : forall y shape, length x = length y -> (fst (bs_loop true x y shape) = true <-> x = y) /\ (x = y -> snd (bs_loop true x y shape) = shape ++ y).
Proof.
  induction x as [|a x IH]; intros [|b y] shape L; try discriminate L; [cbn; split; [tauto|intros; now rewrite app_nil_r]|].
  cbn [bs_loop negb andb]. injection L as L. rewrite orb_false_r. destruct (a =? b) eqn:E.
  - apply N.eqb_eq in E. subst b. rewrite N.max_id. destruct (IH y (shape ++ [a]) L) as [A B]. split.
    + rewrite A. split; congruence.
    + intros H. injection H as <-. rewrite B by reflexivity. now rewrite <- app_assoc.
  - split; [split; [discriminate|intros H; injection H as -> _; lia]|intros H; injection H as -> _; lia].
Qed.
(* the last dimensions, as many as the other shape has *)
Definition tail_of (x : list N) (n : nat) : list N := skipn (length x - n) x.
Lemma tail_full x n : (length x <= n)%nat -> tail_of x n = x.
Proof. intros H. unfold tail_of. replace (length x - n)%nat with 0%nat by lia. reflexivity. Qed.
Lemma tail_length x n : (n <= length x)%nat -> length (tail_of x n) = n.
Proof. intros H. unfold tail_of. rewrite skipn_length. lia. Qed.
Lemma broadcast_false x y :
  match np_broadcast x y with
  | Some z => if zo_free (tail_of x (length y)) (tail_of y (length x)) then broadcast_shape x y false = (true, z) else fst (broadcast_shape x y false) = false
  | None => fst (broadcast_shape x y false) = false
  end.
Proof.
  assert (N0 : forall l, np_broadcast [] l = Some l).
  { intros l. pose proof (np_broadcast_split_r l [] [] eq_refl) as H. rewrite app_nil_r in H. rewrite H. cbn. now rewrite app_nil_r. }
  unfold broadcast_shape. destruct (length x =? 0)%nat eqn:X; [|destruct (length y =? 0)%nat eqn:Y].
  - destruct x; [|discriminate X]. rewrite N0. cbn [orb length]. replace (length y <? 0)%nat with false by lia. reflexivity.
  - destruct y; [|discriminate Y]. rewrite np_broadcast_comm, N0. cbn [orb length]. replace (0 <? length x)%nat with true by lia.
    assert (T : tail_of x 0 = []) by (unfold tail_of; rewrite Nat.sub_0_r; apply skipn_all). rewrite T. reflexivity.
  - cbn [orb]. destruct (length y <? length x)%nat eqn:C.
    + replace (np_broadcast x y) with (option_map (app (firstn (length x - length y) x)) (np_zip (skipn (length x - length y) x) y))
        by (rewrite <- np_broadcast_split by (rewrite skipn_length; lia); now rewrite firstn_skipn).
      rewrite (tail_full y) by lia. pose proof (bs_loop_false (tail_of x (length y)) y (firstn (length x - length y) x) (tail_length x (length y) ltac:(lia))) as H.
      unfold tail_of in *. destruct (np_zip (skipn (length x - length y) x) y); cbn [option_map]; exact H.
    + replace (np_broadcast x y) with (option_map (app (firstn (length y - length x) y)) (np_zip x (skipn (length y - length x) y)))
        by (rewrite <- np_broadcast_split_r by (rewrite skipn_length; lia); now rewrite firstn_skipn).
      rewrite (tail_full x) by lia. pose proof (bs_loop_false x (tail_of y (length x)) (firstn (length y - length x) y) ltac:(rewrite tail_length; lia)) as H.
      unfold tail_of in *. destruct (np_zip x (skipn (length y - length x) y)); cbn [option_map]; exact H.
Qed.
Lemma zo_free_pos x : forall y, Forall (fun d => d <> 0) x -> Forall (fun d => d <> 0) y -> zo_free x y = true.
Proof.
  induction x as [|a x IH]; intros [|b y] X Y; try reflexivity. cbn [zo_free]. inversion X; inversion Y; subst. rewrite IH by assumption.
  replace (a =? 0) with false by lia. replace (b =? 0) with false by lia. rewrite andb_false_r. reflexivity.
Qed.
Lemma Forall_skipn {A} (P : A -> Prop) n l : Forall P l -> Forall P (skipn n l).
Proof. revert l. induction n as [|n IH]; intros l H; [exact H|]. destruct l; [constructor|]. inversion H. now apply IH. Qed.

(* multivariate_normal *)
Definition fits (s o : N) : Prop := 1 <= s /\ (s = o \/ o = 1).
Lemma mvn_fit_ok sz : forall os acc, Forall2 fits sz os -> mvn_fit false sz os acc = Some (acc ++ sz).
Proof.
  induction sz as [|s sz IH]; intros os acc F; inversion F as [|? o ? os' [P H] F']; subst; [cbn; now rewrite app_nil_r|].
  cbn [mvn_fit orb]. replace (negb ((s =? 1) || (o =? 1) || (s =? o))) with false by lia. rewrite IH by exact F'. rewrite <- app_assoc. cbn [app].
  replace (N.max s o) with s by lia. reflexivity.
Qed.
Lemma fits_to sz os : Forall2 fits sz os -> Forall2 (fun x y => x = y \/ x = 1) os sz.
Proof. induction 1 as [|s o sz os [_ H] F IH]; constructor; [lia|exact IH]. Qed.
Lemma mvn_size_ok pre sz os : Forall2 fits sz os -> mvn_size (Some (pre ++ sz)) os = Some (pre ++ sz).
Proof.
  intros F. assert (L : length sz = length os) by (eapply Forall2_length; exact F). unfold mvn_size. rewrite app_length.
  replace (length pre + length sz - length os)%nat with (length pre) by lia. replace (length pre + length sz <? length os)%nat with false by lia.
  rewrite skipn_app, firstn_app, Nat.sub_diag, skipn_all, firstn_all, firstn_O. cbn [skipn app]. rewrite app_nil_r. now apply mvn_fit_ok.
Qed.
Lemma fits_bto pre sz os : Forall2 fits sz os -> bto os (pre ++ sz).
Proof. intros F. exists pre, sz. split; [reflexivity|now apply fits_to]. Qed.
Lemma mvn_result mb cb out os : np_broadcast (at_least_1d mb) (at_least_1d cb) = Some os -> bto os out ->
  np_broadcast out (at_least_1d cb) = Some out /\ np_broadcast (at_least_1d mb) out = Some out.
Proof.
  intros H B. apply np_broadcast_to in H. destruct H as [M C]. split; [rewrite np_broadcast_comm|]; apply bto_broadcast; eapply bto_trans; eassumption.
Qed.
