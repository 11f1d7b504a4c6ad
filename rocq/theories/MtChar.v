(* The characteristic polynomial of MT19937's recurrence, and a quick check that a
   polynomial is x^(2^k) modulo it. Polynomials over the field of two elements act on bit
   sequences, x being the shift. With T = x^624 + x^397 the recurrence gives
   T^32 = sum of a_k x^(min k 30 + 1) T^(31 - k), where a_k are the bits of 0x9908b0df
   (Matsumoto and Nishimura, Mersenne Twister, appendix A), so that every
   polynomial has 32 rows in powers of T, each below x^624. *)
From Verif Require Import Word Mt19937 Mt19937Facts Mt19937Poly.
From Coq Require Import ZifyBool ZifyNat ZifyN.
Open Scope N_scope.
Ltac Zify.zify_post_hook ::= idtac.

(* ------------------------------------------- polynomials acting on sequences *)
Definition bseq := N -> bool.
Definition sh (m : N) (z : bseq) : bseq := fun i => z (i + m).
Fixpoint actp (p : positive) (z : bseq) (i : N) : bool :=
  match p with
  | xH => z i
  | xO p => actp p z (i + 1)
  | xI p => xorb (z i) (actp p z (i + 1))
  end.
Definition act (p : N) (z : bseq) (i : N) : bool := match p with 0 => false | Npos p => actp p z i end.
Definition T (z : bseq) : bseq := fun i => xorb (z (i + 624)) (z (i + 397)).
Fixpoint act2 (rs : list N) (z : bseq) (i : N) : bool :=
  match rs with
  | [] => false
  | r :: rs => xorb (act r z i) (act2 rs (T z) i)
  end.
Ltac xb := repeat match goal with |- context[xorb ?a ?b] => first [is_var a; destruct a | is_var b; destruct b] end; cbn; try reflexivity.

Lemma actp_ext p : forall z w i, (forall k, z k = w k) -> actp p z i = actp p w i.
Proof. induction p as [p IH|p IH|]; intros z w i H; cbn [actp]; [rewrite H, (IH z w _ H)|apply IH|apply H]; auto. Qed.
Lemma act_ext p z w i : (forall k, z k = w k) -> act p z i = act p w i.
Proof. destruct p; [reflexivity|]. apply actp_ext. Qed.
Lemma T_ext z w i : (forall k, z k = w k) -> T z i = T w i.
Proof. intros H. unfold T. now rewrite !H. Qed.
Lemma act2_ext rs : forall z w i, (forall k, z k = w k) -> act2 rs z i = act2 rs w i.
Proof. induction rs as [|r rs IH]; intros z w i H; cbn [act2]; [reflexivity|]. rewrite (act_ext r z w i H). f_equal. apply IH. intros k. now apply T_ext. Qed.

Lemma actp_sh p : forall z m i, actp p (sh m z) i = actp p z (i + m).
Proof. induction p as [p IH|p IH|]; intros z m i; cbn [actp]; rewrite ?IH; unfold sh; try (f_equal; [..|f_equal; lia]); try reflexivity. f_equal. lia. Qed.
Lemma act_sh p z m i : act p (sh m z) i = act p z (i + m).
Proof. destruct p; [reflexivity|]. apply actp_sh. Qed.
Lemma T_sh z m i : T (sh m z) i = T z (i + m).
Proof. unfold T, sh. f_equal; f_equal; lia. Qed.
Lemma act2_sh rs : forall z m i, act2 rs (sh m z) i = act2 rs z (i + m).
Proof.
  induction rs as [|r rs IH]; intros z m i; cbn [act2]; [reflexivity|]. rewrite act_sh. f_equal.
  rewrite <- IH. apply act2_ext. intros k. apply T_sh.
Qed.
(* sums of sequences *)
Definition xs (z w : bseq) : bseq := fun i => xorb (z i) (w i).
Lemma xorb_4 a b c d : xorb (xorb a b) (xorb c d) = xorb (xorb a c) (xorb b d).
Proof. now destruct a, b, c, d. Qed.
Lemma actp_xs p : forall z w i, actp p (xs z w) i = xorb (actp p z i) (actp p w i).
Proof. induction p as [p IH|p IH|]; intros z w i; cbn [actp]; rewrite ?IH; [|reflexivity|reflexivity]. unfold xs. apply xorb_4. Qed.
Lemma act_xs p z w i : act p (xs z w) i = xorb (act p z i) (act p w i).
Proof. destruct p; [reflexivity|]. apply actp_xs. Qed.
Lemma T_xs z w i : T (xs z w) i = xorb (T z i) (T w i).
Proof. unfold T, xs. apply xorb_4. Qed.
Lemma act2_xs rs : forall z w i, act2 rs (xs z w) i = xorb (act2 rs z i) (act2 rs w i).
Proof.
  induction rs as [|r rs IH]; intros z w i; cbn [act2]; [reflexivity|]. rewrite act_xs, xorb_4. f_equal.
  rewrite <- IH. apply act2_ext. intros k. apply T_xs.
Qed.
Lemma actp_0 p : forall i, actp p (fun _ => false) i = false.
Proof. induction p as [p IH|p IH|]; intros i; cbn [actp]; rewrite ?IH; reflexivity. Qed.
(* operators commute *)
Lemma actp_T p z i : actp p (T z) i = T (actp p z) i.
Proof. unfold T at 2. rewrite <- !actp_sh, <- actp_xs. apply actp_ext. intros k. reflexivity. Qed.
Lemma act_T p z i : act p (T z) i = T (act p z) i.
Proof. destruct p; [reflexivity|]. apply actp_T. Qed.
Lemma act2_T rs z i : act2 rs (T z) i = T (act2 rs z) i.
Proof. unfold T at 2. rewrite <- !act2_sh, <- act2_xs. apply act2_ext. intros k. reflexivity. Qed.
Lemma actp_act2 p : forall rs z i, actp p (act2 rs z) i = act2 rs (actp p z) i.
Proof.
  induction p as [p IH|p IH|]; intros rs z i; cbn [actp].
  - rewrite IH, <- act2_sh, <- act2_xs. apply act2_ext. intros k. reflexivity.
  - rewrite IH, <- act2_sh. apply act2_ext. intros k. reflexivity.
  - apply act2_ext. reflexivity.
Qed.
Lemma act_act2 p rs z i : act p (act2 rs z) i = act2 rs (act p z) i.
Proof.
  destruct p; [|apply actp_act2]. cbn [act]. symmetry. change (act 0 z) with (fun _ : N => false). clear. revert i. induction rs as [|r rs IH]; intros i; cbn [act2]; [reflexivity|].
  rewrite (act2_ext rs (T _) (fun _ => false)), IH by reflexivity. destruct r; [reflexivity|]. cbn [act]. now rewrite actp_0.
Qed.

(* ------------------------------------------- sums and multiples of polynomials *)
Lemma act_double p z i : act (N.double p) z i = act p z (i + 1).
Proof. destruct p; reflexivity. Qed.
Lemma act_succ_double p z i : act (N.succ_double p) z i = xorb (z i) (act p z (i + 1)).
Proof. destruct p; cbn; [now rewrite xorb_false_r|reflexivity]. Qed.
Lemma act_lxor_p p : forall q z i, act (Pos.lxor p q) z i = xorb (actp p z i) (actp q z i).
Proof.
  induction p as [p IH|p IH|]; intros [q|q|] z i; cbn [Pos.lxor actp]; rewrite ?act_double, ?act_succ_double, ?IH; cbn [act actp];
    try (generalize (z i) as a; generalize (actp p z (i + 1)) as b; generalize (actp q z (i + 1)) as c; intros [] [] []; reflexivity);
    try (generalize (z i) as a; generalize (actp p z (i + 1)) as b; intros [] []; reflexivity);
    try (generalize (z i) as a; generalize (actp q z (i + 1)) as b; intros [] []; reflexivity).
  now destruct (z i).
Qed.
Lemma act_lxor p q z i : act (N.lxor p q) z i = xorb (act p z i) (act q z i).
Proof. destruct p as [|p], q as [|q]; cbn [N.lxor act]; rewrite ?xorb_false_r; try reflexivity. - now rewrite xorb_false_l. - apply act_lxor_p. Qed.
Lemma act_shiftl p m z i : act (N.shiftl p m) z i = act p z (i + m).
Proof.
  revert i. induction m as [|m IH] using N.peano_ind; intros i; [rewrite N.shiftl_0_r; f_equal; lia|]. rewrite N.shiftl_succ_r, act_double, IH. f_equal. lia.
Qed.
Lemma act_pow m z i : act (N.shiftl 1 m) z i = z (i + m).
Proof. apply act_shiftl. Qed.
(* the square of a polynomial: zeros between its coefficients *)
Fixpoint sprp (p : positive) : positive :=
  match p with xH => xH | xO p => xO (xO (sprp p)) | xI p => xI (xO (sprp p)) end.
Definition spr (p : N) : N := match p with 0 => 0 | Npos p => Npos (sprp p) end.
Lemma sprp_act p : forall z i, actp (sprp p) z i = actp p (actp p z) i.
Proof.
  induction p as [p IH|p IH|]; intros z i; cbn [sprp actp]; [| |reflexivity].
  - rewrite IH. change (fun i0 : N => xorb (z i0) (actp p z (i0 + 1))) with (xs z (sh 1 (actp p z))). rewrite actp_xs, actp_sh.
    now destruct (z i), (actp p z (i + 1)), (actp p (actp p z) (i + 1 + 1)).
  - rewrite IH. change (fun i0 : N => actp p z (i0 + 1)) with (sh 1 (actp p z)). rewrite actp_sh. reflexivity.
Qed.
Lemma spr_act p z i : act (spr p) z i = act p (act p z) i.
Proof. destruct p; [reflexivity|]. apply sprp_act. Qed.
Fixpoint sq (rs : list N) : list N := match rs with [] => [] | r :: rs => spr r :: 0 :: sq rs end.
Lemma sq_act rs : forall z i, act2 (sq rs) z i = act2 rs (act2 rs z) i.
Proof.
  induction rs as [|r rs IH]; intros z i; [reflexivity|].
  change (act2 (r :: rs) (act2 (r :: rs) z) i) with (xorb (act r (act2 (r :: rs) z) i) (act2 rs (T (act2 (r :: rs) z)) i)).
  change (act2 (sq (r :: rs)) z i) with (xorb (act (spr r) z i) (xorb false (act2 (sq rs) (T (T z)) i))). rewrite xorb_false_l, IH, spr_act.
  rewrite (act_ext r (act2 (r :: rs) z) (xs (act r z) (act2 rs (T z)))) by reflexivity. rewrite act_xs, act_act2.
  assert (E : act2 rs (T (act2 (r :: rs) z)) i = xorb (act2 rs (act r (T z)) i) (act2 rs (act2 rs (T (T z))) i)).
  { rewrite <- act2_xs. apply act2_ext. intros k. rewrite (T_ext _ (xs (act r z) (act2 rs (T z)))) by reflexivity. rewrite T_xs. unfold xs. now rewrite <- act_T, <- act2_T. }
  rewrite E. generalize (act r (act r z) i) as a; generalize (act2 rs (act r (T z)) i) as b; generalize (act2 rs (act2 rs (T (T z))) i) as c. now intros [] [] [].
Qed.

(* ------------------------------------------- rows *)
Fixpoint zipx (a b : list N) : list N :=
  match a, b with
  | [], _ => b
  | _, [] => a
  | x :: a, y :: b => N.lxor x y :: zipx a b
  end.
Lemma zipx_act a : forall b z i, act2 (zipx a b) z i = xorb (act2 a z i) (act2 b z i).
Proof.
  induction a as [|x a IH]; intros [|y b] z i; cbn [zipx act2]; rewrite ?xorb_false_l, ?xorb_false_r; try reflexivity.
  rewrite act_lxor, IH. apply xorb_4.
Qed.
Fixpoint Ti (n : nat) (z : bseq) : bseq := match n with O => z | S n => Ti n (T z) end.
Lemma Ti_def n z : Ti (S n) z = Ti n (T z). Proof. reflexivity. Qed.
Lemma Ti_ext n : forall z w i, (forall k, z k = w k) -> Ti n z i = Ti n w i.
Proof. induction n as [|n IH]; intros z w i H; [apply H|]. cbn [Ti]. apply IH. intros k. now apply T_ext. Qed.
Lemma Ti_sh n : forall z m i, Ti n (sh m z) i = Ti n z (i + m).
Proof. induction n as [|n IH]; intros z m i; [reflexivity|]. cbn [Ti]. rewrite <- IH. apply Ti_ext. intros k. apply T_sh. Qed.
Lemma Ti_xs n : forall z w i, Ti n (xs z w) i = xorb (Ti n z i) (Ti n w i).
Proof. induction n as [|n IH]; intros z w i; [reflexivity|]. cbn [Ti]. rewrite <- IH. apply Ti_ext. intros k. apply T_xs. Qed.
Lemma Ti_S n : forall z i, Ti (S n) z i = T (Ti n z) i.
Proof. intros z i. cbn [Ti]. unfold T at 2. rewrite <- !Ti_sh, <- Ti_xs. apply Ti_ext. intros k. reflexivity. Qed.
Lemma act2_last l : forall h z i, act2 (l ++ [h]) z i = xorb (act2 l z i) (act h (Ti (List.length l) z) i).
Proof.
  induction l as [|r l IH]; intros h z i; cbn [app act2 List.length Ti]; [now rewrite xorb_false_r, xorb_false_l|]. rewrite IH. now rewrite xorb_assoc.
Qed.

(* x^624 = T + x^397 *)
Fixpoint splp (n : nat) (p : positive) : N * N :=
  match n with
  | O => (0, Npos p)
  | S n => match p with
           | xH => (1, 0)
           | xO p => let q := splp n p in (N.double (fst q), snd q)
           | xI p => let q := splp n p in (N.succ_double (fst q), snd q)
           end
  end.
Definition spl (n : nat) (r : N) : N * N := match r with 0 => (0, 0) | Npos p => splp n p end.
Lemma splp_act n : forall p z i, actp p z i = xorb (act (fst (splp n p)) z i) (act (snd (splp n p)) z (i + N.of_nat n)).
Proof.
  induction n as [|n IH]; intros p z i; [cbn [splp fst snd act]; rewrite xorb_false_l; f_equal; lia|].
  replace (i + N.of_nat (S n)) with (i + 1 + N.of_nat n) by lia. destruct p as [p|p|]; cbn [splp fst snd actp].
  - now rewrite act_succ_double, xorb_assoc, <- IH.
  - now rewrite act_double, <- IH.
  - cbn [act actp]. now rewrite xorb_false_r.
Qed.
Lemma spl_act n r z i : act r z i = xorb (act (fst (spl n r)) z i) (act (snd (spl n r)) z (i + N.of_nat n)).
Proof. destruct r as [|p]; [reflexivity|]. apply splp_act. Qed.
Definition fold1 (lo hi : N) : N := N.lxor lo (N.shiftl hi 397).
Lemma fold1_act lo hi z i : xorb (act lo z i) (act hi z (i + 624)) = xorb (act (fold1 lo hi) z i) (act hi (T z) i).
Proof.
  unfold fold1. rewrite !act_lxor, !act_shiftl. change (T z) with (xs (sh 624 z) (sh 397 z)). rewrite act_xs, !act_sh.
  now destruct (act lo z i), (act hi z (i + 624)), (act hi z (i + 397)).
Qed.
Definition B624 : nat := 624.
Fixpoint foldn (n : nat) (r c : N) : N * N :=
  match n with
  | O => (r, c)
  | S n => let s := spl B624 r in match snd s with 0 => (r, c) | hi => foldn n (fold1 (fst s) hi) (N.lxor c hi) end
  end.
Lemma foldn_act n : forall r c z i, let '(lo, hi) := foldn n r c in xorb (act lo z i) (act hi (T z) i) = xorb (act r z i) (act c (T z) i).
Proof.
  induction n as [|n IH]; intros r c z i; cbn [foldn]; [reflexivity|]. cbv zeta. pose proof (spl_act B624 r z i) as E. change (N.of_nat B624) with 624 in E.
  destruct (spl B624 r) as [lo h]. cbn [fst snd] in *. destruct h as [|hi]; [reflexivity|].
  specialize (IH (fold1 lo (Npos hi)) (N.lxor c (Npos hi)) z i). destruct (foldn n _ _) as [lo' h]. rewrite IH, act_lxor, E, fold1_act.
  now destruct (act (fold1 lo (Npos hi)) z i), (act c (T z) i), (act (Npos hi) (T z) i).
Qed.
Fixpoint tredf (f : N -> N * N) (c : N) (rs : list N) : list N :=
  match rs with
  | [] => [c]
  | r :: rs => let p := f (N.lxor r c) in fst p :: tredf f (snd p) rs
  end.
Lemma tredf_act f : (forall r z i, xorb (act (fst (f r)) z i) (act (snd (f r)) (T z) i) = act r z i) ->
  forall rs c z i, act2 (tredf f c rs) z i = xorb (act c z i) (act2 rs z i).
Proof.
  intros F rs. induction rs as [|r rs IH]; intros c z i; [reflexivity|]. cbn [tredf act2]. rewrite IH.
  rewrite <- xorb_assoc, F, act_lxor. now destruct (act r z i), (act c z i), (act2 rs (T z) i).
Qed.
Definition foldr (r : N) : N * N := foldn 8 r 0.
Definition tred (rs : list N) : list N := tredf foldr 0 rs.
Lemma tred_act rs z i : act2 (tred rs) z i = act2 rs z i.
Proof.
  unfold tred. rewrite tredf_act; [apply xorb_false_l|]. intros r w k. unfold foldr. pose proof (foldn_act 8 r 0 w k) as E. destruct (foldn 8 r 0) as [lo hi].
  cbn [fst snd]. rewrite E. cbn [act]. apply xorb_false_r.
Qed.

(* T^32 in lower powers *)
Definition cexp (k : nat) : N := N.min (N.of_nat k) 30.
Fixpoint Ak (k : nat) : list (option N) :=
  match k with
  | O => []
  | S k => (if N.testbit 0x9908b0df (N.of_nat k) then Some (cexp k + 1) else None) :: Ak k
  end.
Definition rowsof (h : N) (l : list (option N)) : list N := map (fun o => match o with Some s => N.shiftl h s | None => 0 end) l.
Definition A32 : list (option N) := Ak 32.
Definition phi0 (z : bseq) : Prop := forall i, Ti 32 z i = act2 (rowsof 1 A32) z i.
Lemma rowsof_act h l : forall z i, act2 (rowsof h l) z i = act h (act2 (rowsof 1 l) z) i.
Proof.
  induction l as [|o l IH]; intros z i.
  - cbn [rowsof map act2]. destruct h; [reflexivity|]. cbn [act]. symmetry. change (act2 [] z) with (fun _ : N => false). apply actp_0.
  - change (rowsof h (o :: l)) with (match o with Some s => N.shiftl h s | None => 0 end :: rowsof h l). cbn [act2]. rewrite IH. destruct o as [s|].
    + rewrite act_shiftl. rewrite (act_ext h (act2 (rowsof 1 (Some s :: l)) z) (xs (sh s z) (act2 (rowsof 1 l) (T z)))).
      * now rewrite act_xs, act_sh.
      * intros k. change (act2 (rowsof 1 (Some s :: l)) z k) with (xorb (act (N.shiftl 1 s) z k) (act2 (rowsof 1 l) (T z) k)). now rewrite act_pow.
    + rewrite (act_ext h (act2 (rowsof 1 (None :: l)) z) (act2 (rowsof 1 l) (T z))) by (intros k; exact (xorb_false_l _)). exact (xorb_false_l _).
Qed.
Definition mulT (r : N) (q : list N) : list N :=
  match last q 0 with
  | 0 => r :: removelast q
  | h => zipx (r :: removelast q) (rowsof h A32)
  end.
Lemma zipx_len a : forall b, List.length a = List.length b -> List.length (zipx a b) = List.length a.
Proof. induction a as [|x a IH]; intros [|y b] H; try discriminate H; [reflexivity|]. cbn [zipx List.length]. now rewrite IH by (injection H as H; exact H). Qed.
Lemma removelast_len {A} (l : list A) : List.length (removelast l) = pred (List.length l).
Proof. induction l as [|x l IH]; [reflexivity|]. destruct l as [|y l]; [reflexivity|]. change (removelast (x :: y :: l)) with (x :: removelast (y :: l)). cbn [List.length] in *. now rewrite IH. Qed.
Lemma mulT_act r q z i : phi0 z -> List.length q = 32%nat -> List.length (mulT r q) = 32%nat /\ act2 (mulT r q) z i = xorb (act r z i) (act2 q (T z) i).
Proof.
  intros P L. assert (Q : q = removelast q ++ [last q 0]) by (apply app_removelast_last; intros ->; discriminate L).
  assert (R : List.length (removelast q) = 31%nat) by (rewrite removelast_len, L; reflexivity).
  assert (E : xorb (act r z i) (act2 q (T z) i) = xorb (act2 (r :: removelast q) z i) (act (last q 0) (act2 (rowsof 1 A32) z) i)).
  { rewrite Q at 1. rewrite act2_last, R. cbn [act2]. rewrite xorb_assoc. f_equal. f_equal. apply act_ext. intros k. rewrite <- Ti_def. apply P. }
  rewrite E. unfold mulT. destruct (last q 0) as [|h].
  - split; [cbn [List.length]; now rewrite R|]. cbn [act]. now rewrite xorb_false_r.
  - split; [rewrite zipx_len; [|reflexivity || (cbn [List.length]; rewrite R; reflexivity)]; cbn [List.length]; now rewrite R|]. now rewrite zipx_act, rowsof_act.
Qed.
Fixpoint redT (rs : list N) : list N := match rs with [] => repeat 0 32 | r :: rs => mulT r (redT rs) end.
Lemma phi0_T z : phi0 z -> phi0 (T z).
Proof. intros P i. rewrite act2_T, <- (T_ext _ _ i P), <- Ti_S, (Ti_def 32 z). reflexivity. Qed.
Lemma zeros_act n : forall z i, act2 (repeat 0 n) z i = false.
Proof. induction n as [|n IH]; intros z i; [reflexivity|]. cbn [repeat act2 act]. now rewrite IH. Qed.
Lemma redT_len rs : List.length (redT rs) = 32%nat.
Proof.
  induction rs as [|r rs L]; [reflexivity|]. cbn [redT].
  assert (R : List.length (removelast (redT rs)) = 31%nat) by (rewrite removelast_len, L; reflexivity).
  unfold mulT. destruct (last (redT rs) 0); [cbn [List.length]; now rewrite R|]. rewrite zipx_len; cbn [List.length]; rewrite R; reflexivity.
Qed.
Lemma redT_act rs : forall z i, phi0 z -> act2 (redT rs) z i = act2 rs z i.
Proof.
  induction rs as [|r rs IH]; intros z i P; [apply zeros_act|]. cbn [redT act2]. rewrite (proj2 (mulT_act r (redT rs) z i P (redT_len rs))). f_equal. apply IH. now apply phi0_T.
Qed.

(* ------------------------------------------- the check *)
Definition norm (rs : list N) : list N := redT (tred (redT (tred rs))).
Lemma norm_act rs z i : phi0 z -> act2 (norm rs) z i = act2 rs z i.
Proof. intros P. unfold norm. now rewrite redT_act, tred_act, redT_act, tred_act. Qed.
(* a polynomial in blocks of 624 coefficients *)
Fixpoint conv (n : nat) (p : N) : list N :=
  match n with
  | O => [p]
  | S n =>
      let s := spl B624 p in
      match snd s with
      | 0 => [p]
      | hi => let q := conv n hi in tred (zipx (fst s :: q) (map (fun r => N.shiftl r 397) q))
      end
  end.
Lemma map_shiftl_act s q : forall z i, act2 (map (fun r => N.shiftl r s) q) z i = act2 q z (i + s).
Proof. induction q as [|r q IH]; intros z i; [reflexivity|]. cbn [map act2]. now rewrite act_shiftl, IH. Qed.
Lemma conv_act n : forall p z i, act2 (conv n p) z i = act p z i.
Proof.
  induction n as [|n IH]; intros p z i; [exact (xorb_false_r _)|]. cbn [conv]. cbv zeta. pose proof (spl_act B624 p z i) as E. change (N.of_nat B624) with 624 in E.
  destruct (spl B624 p) as [lo h]. cbn [fst snd] in *. destruct h as [|hi]; [exact (xorb_false_r _)|].
  rewrite tred_act, zipx_act, map_shiftl_act. cbn [act2]. rewrite !IH, E. change (T z) with (xs (sh 624 z) (sh 397 z)). rewrite act_xs, !act_sh.
  now destruct (act lo z i), (act (Npos hi) z (i + 624)), (act (Npos hi) z (i + 397)).
Qed.
(* E stands for x^m *)
Definition stands (E : list N) (m : N) : Prop := forall z, phi0 z -> forall i, act2 E z i = z (i + m).
Definition sqn (E : list N) : list N := norm (sq E).
Lemma phi0_sh z m : phi0 z -> phi0 (sh m z).
Proof. intros P i. rewrite Ti_sh, act2_sh. apply P. Qed.
Lemma stands_sq E m : stands E m -> stands (sqn E) (2 * m).
Proof.
  intros H z P i. unfold sqn. rewrite norm_act, sq_act by exact P. rewrite (act2_ext E (act2 E z) (sh m z)) by (intros k; now apply H).
  rewrite H by now apply phi0_sh. unfold sh. f_equal. lia.
Qed.
Fixpoint sqk (k : nat) (E : list N) : list N := match k with O => E | S k => sqk k (sqn E) end.
Lemma stands_sqk k : forall E m, stands E m -> stands (sqk k E) (2 ^ N.of_nat k * m).
Proof.
  induction k as [|k IH]; intros E m H; [now rewrite N.mul_1_l|]. cbn [sqk]. replace (2 ^ N.of_nat (S k) * m) with (2 ^ N.of_nat k * (2 * m)) by (rewrite Nat2N.inj_succ, N.pow_succ_r'; lia).
  now apply IH, stands_sq.
Qed.
Fixpoint rows_eqb (a b : list N) : bool := match a, b with [], [] => true | x :: a, y :: b => if x =? y then rows_eqb a b else false | _, _ => false end.
Lemma rows_eqb_eq a : forall b, rows_eqb a b = true -> a = b.
Proof. induction a as [|x a IH]; intros [|y b]; cbn [rows_eqb]; try discriminate; [reflexivity|]. destruct (x =? y) eqn:E; [|discriminate]. intros H. apply N.eqb_eq in E. now rewrite E, (IH b H). Qed.
(* x^31 p = x^31 E *)
Definition same (n : nat) (c : N) (p : N) (E : list N) : bool := rows_eqb (norm (conv n (N.shiftl p c))) (norm (map (fun r => N.shiftl r c) E)).
Lemma same_act n c p E m z i : same n c p E = true -> stands E m -> phi0 z -> act p z (i + c) = z (i + c + m).
Proof.
  intros Q H P. unfold same in Q. apply rows_eqb_eq in Q. rewrite <- (H z P). rewrite <- map_shiftl_act, <- act_shiftl, <- (conv_act n).
  rewrite <- (norm_act (conv n (N.shiftl p c)) z i P), <- (norm_act (map (fun r => N.shiftl r c) E) z i P). now rewrite Q.
Qed.
Definition check (n a b : nat) (c : N) (E : list N) (p1 p2 p3 p4 p5 : N) : bool :=
  let e := sqk a E in let f := sqk b e in let g := sqk b f in let h := sqk b g in let k := sqk b h in
  if same n c p1 e then if same n c p2 f then if same n c p3 g then if same n c p4 h then same n c p5 k else false else false else false else false.
