(* Quick arithmetic with binary polynomials: lists of 32-bit limbs held in the
   kernel's machine integers, least significant limb first. Every operation is
   proved to do what Gf2's operations on binary numbers do; only the boolean
   checks at the end are ever computed. *)
From Coq Require Import Uint63.
From Verif Require Import Word Gf2.
From Coq Require Import ZifyBool ZifyNat ZifyN.
Open Scope N_scope.

Notation row := (list int).
Definition L0 : int := 0%uint63.
Definition L1 : int := 1%uint63.
Definition L32 : int := 32%uint63.
Definition Lmask : int := 4294967295%uint63.
Definition lN (x : int) : N := Z.to_N (to_Z x).
Definition limb_ok (x : int) : Prop := lN x < 2 ^ 32.
Definition row_ok (n : nat) (l : row) : Prop := List.length l = n /\ Forall limb_ok l.
Fixpoint lval (l : row) : N := match l with [] => 0 | x :: l => lN x + 2 ^ 32 * lval l end.

Lemma lN_0 : lN L0 = 0. Proof. reflexivity. Qed.
Lemma Zof_lN x : Z.of_N (lN x) = to_Z x.
Proof. unfold lN. rewrite Z2N.id; [reflexivity|apply to_Z_bounded]. Qed.
Lemma Zlxor_N a b : Z.of_N (N.lxor a b) = Z.lxor (Z.of_N a) (Z.of_N b).
Proof. destruct a, b; reflexivity. Qed.
Lemma lN_lxor x y : lN (PrimInt63.lxor x y) = N.lxor (lN x) (lN y).
Proof. apply N2Z.inj. rewrite Zlxor_N, !Zof_lN. apply lxor_spec'. Qed.
Lemma Zland_N a b : Z.of_N (N.land a b) = Z.land (Z.of_N a) (Z.of_N b).
Proof. destruct a, b; reflexivity. Qed.
Lemma lN_land x y : lN (PrimInt63.land x y) = N.land (lN x) (lN y).
Proof. apply N2Z.inj. rewrite Zland_N, !Zof_lN. apply land_spec'. Qed.
Lemma lN_inj x y : lN x = lN y -> x = y.
Proof. intros E. apply to_Z_inj. rewrite <- !Zof_lN. now rewrite E. Qed.

(* ---- exclusive or ---- *)
Fixpoint lx (a b : row) : row :=
  match a with
  | [] => b
  | x :: a' => match b with [] => a | y :: b' => PrimInt63.lxor x y :: lx a' b' end
  end.
Lemma limb_ok_lxor x y : limb_ok x -> limb_ok y -> limb_ok (PrimInt63.lxor x y).
Proof. unfold limb_ok. intros Hx Hy. rewrite lN_lxor. now apply (wf_lxor 32). Qed.
Lemma lx_ok a : forall b, Forall limb_ok a -> Forall limb_ok b -> Forall limb_ok (lx a b).
Proof.
  induction a as [|x a IH]; intros [|y b] Ha Hb; cbn [lx]; auto.
  inversion Ha; inversion Hb; subst. constructor; [now apply limb_ok_lxor|now apply IH].
Qed.
Lemma lx_length n a : forall b, List.length a = n -> List.length b = n -> List.length (lx a b) = n.
Proof.
  revert n. induction a as [|x a IH]; intros n [|y b] Ha Hb; cbn in *; subst; auto.
Qed.
Lemma lx_row n a b : row_ok n a -> row_ok n b -> row_ok n (lx a b).
Proof. intros [La Fa] [Lb Fb]. split; [now apply lx_length|now apply lx_ok]. Qed.
Lemma lxor_hi_lo a b c d : a < 2 ^ 32 -> c < 2 ^ 32 ->
  N.lxor (a + 2 ^ 32 * b) (c + 2 ^ 32 * d) = N.lxor a c + 2 ^ 32 * N.lxor b d.
Proof.
  intros Ha Hc.
  assert (E : forall x y, x < 2 ^ 32 -> x + 2 ^ 32 * y = N.lxor x (N.shiftl y 32)).
  { intros x y Hx. rewrite N.shiftl_mul_pow2, (N.mul_comm y). apply N.add_nocarry_lxor.
    apply N.bits_inj. intros i. rewrite N.land_spec, N.bits_0.
    destruct (N.ltb_spec i 32) as [Hi|Hi].
    - rewrite (N.mul_comm (2 ^ 32)), <- N.shiftl_mul_pow2, N.shiftl_spec_low by exact Hi. apply andb_false_r.
    - rewrite (proj1 (wf_testbit 32 x) Hx) by exact Hi. reflexivity. }
  rewrite !E by (try assumption; now apply (wf_lxor 32)). rewrite shiftl_lxor.
  rewrite <- !N.lxor_assoc. f_equal. rewrite !N.lxor_assoc. f_equal. apply N.lxor_comm.
Qed.
Lemma lval_lx a : forall b, Forall limb_ok a -> Forall limb_ok b -> lval (lx a b) = N.lxor (lval a) (lval b).
Proof.
  induction a as [|x a IH]; intros [|y b] Ha Hb; cbn [lx lval]; try reflexivity.
  - now rewrite N.lxor_0_r.
  - inversion Ha; inversion Hb; subst. rewrite lN_lxor, IH by assumption. now rewrite lxor_hi_lo.
Qed.

(* ---- numbers to limbs ---- *)
Fixpoint to_row (n : nat) (v : N) : row :=
  match n with
  | O => []
  | S n => of_Z (Z.of_N (N.land v 0xffffffff)) :: to_row n (N.shiftr v 32)
  end.
Lemma lN_of v : v < 2 ^ 32 -> lN (of_Z (Z.of_N v)) = v.
Proof.
  intros H. unfold lN. rewrite of_Z_spec. rewrite Z.mod_small; [lia|].
  change (2 ^ 32) with 4294967296 in H. change wB with 9223372036854775808%Z. lia.
Qed.
Lemma to_row_ok n : forall v, row_ok n (to_row n v).
Proof.
  induction n as [|n IH]; intros v; [split; [reflexivity|constructor]|]. cbn [to_row].
  destruct (IH (N.shiftr v 32)) as [L F]. split; [cbn; now rewrite L|]. constructor; [|exact F].
  unfold limb_ok. change 0xffffffff with (N.ones 32). rewrite N.land_ones, lN_of by apply wf_trunc. apply wf_trunc.
Qed.
Lemma to_row_val n : forall v, v < 2 ^ (32 * N.of_nat n) -> lval (to_row n v) = v.
Proof.
  induction n as [|n IH]; intros v Hv; cbn [to_row lval].
  - change (2 ^ (32 * N.of_nat 0)) with 1 in Hv. lia.
  - change 0xffffffff with (N.ones 32). rewrite N.land_ones, lN_of by apply wf_trunc.
    rewrite IH, N.shiftr_div_pow2.
    + pose proof (N.div_mod v (2 ^ 32) (pow2_nz 32)) as E. clear - E. lia.
    + rewrite N.shiftr_div_pow2. apply N.div_lt_upper_bound; [discriminate|]. rewrite <- N.pow_add_r.
      replace (32 + 32 * N.of_nat n) with (32 * N.of_nat (S n)) by (clear; lia). exact Hv.
Qed.
Fixpoint row_eqb (a b : row) : bool :=
  match a, b with
  | [], [] => true
  | x :: a, y :: b => if PrimInt63.eqb x y then row_eqb a b else false
  | _, _ => false
  end.
Lemma row_eqb_eq a : forall b, row_eqb a b = true -> a = b.
Proof.
  induction a as [|x a IH]; intros [|y b] H; try discriminate; [reflexivity|]. cbn in H.
  destruct (PrimInt63.eqb x y) eqn:E; [|discriminate]. apply eqb_correct in E. subst. f_equal. now apply IH.
Qed.
Lemma lval_lt l : Forall limb_ok l -> lval l < 2 ^ (32 * N.of_nat (List.length l)).
Proof.
  induction 1 as [|x l Hx Hl IH]; [reflexivity|]. cbn [lval List.length].
  replace (32 * N.of_nat (S (List.length l))) with (32 + 32 * N.of_nat (List.length l)) by (clear; lia).
  rewrite N.pow_add_r. unfold limb_ok in Hx. nia.
Qed.

(* ---- multiplication by x ---- *)
Fixpoint shl1 (c : int) (l : row) : row * int :=
  match l with
  | [] => ([], c)
  | x :: l =>
      let y := PrimInt63.lsl x L1 in
      let '(r, c') := shl1 (PrimInt63.lsr y L32) l in
      (PrimInt63.add (PrimInt63.land y Lmask) c :: r, c')
  end.
Lemma limb_shl x : limb_ok x ->
  lN (PrimInt63.lsr (PrimInt63.lsl x L1) L32) <= 1 /\
  lN (PrimInt63.land (PrimInt63.lsl x L1) Lmask) + 1 < 2 ^ 32 /\
  lN (PrimInt63.land (PrimInt63.lsl x L1) Lmask) + 2 ^ 32 * lN (PrimInt63.lsr (PrimInt63.lsl x L1) L32) = 2 * lN x.
Proof.
  unfold limb_ok. intros H.
  assert (E : lN (PrimInt63.lsl x L1) = 2 * lN x).
  { apply N2Z.inj. rewrite Zof_lN, lsl_spec. change (2 ^ to_Z L1)%Z with 2%Z.
    rewrite Z.mod_small; rewrite <- Zof_lN; [lia|]. change wB with 9223372036854775808%Z.
    change (2 ^ 32) with 4294967296 in H. lia. }
  assert (E2 : lN (PrimInt63.lsr (PrimInt63.lsl x L1) L32) = 2 * lN x / 2 ^ 32).
  { apply N2Z.inj. rewrite Zof_lN, lsr_spec, <- Zof_lN, E. change (2 ^ to_Z L32)%Z with (Z.of_N (2 ^ 32)). now rewrite N2Z.inj_div. }
  rewrite E2, lN_land, E. change (lN Lmask) with (N.ones 32). rewrite N.land_ones.
  change (2 ^ 32) with 4294967296 in *. set (v := lN x) in *. clearbody v. clear - H. lia.
Qed.
Lemma shl1_spec l : forall c, Forall limb_ok l -> lN c <= 1 ->
  Forall limb_ok (fst (shl1 c l)) /\ List.length (fst (shl1 c l)) = List.length l /\ lN (snd (shl1 c l)) <= 1 /\
  lval (fst (shl1 c l)) + 2 ^ (32 * N.of_nat (List.length l)) * lN (snd (shl1 c l)) = 2 * lval l + lN c.
Proof.
  induction l as [|x l IH]; intros c Hl Hc; cbn [shl1].
  - cbn [fst snd lval List.length]. change (2 ^ (32 * N.of_nat 0)) with 1. repeat split; auto; lia.
  - inversion Hl as [|? ? Hx Hl']; subst. destruct (limb_shl x Hx) as (A & B & C).
    destruct (IH _ Hl' A) as (F & L & Q & V).
    destruct (shl1 (PrimInt63.lsr (PrimInt63.lsl x L1) L32) l) as [r c']. cbn [fst snd] in *.
    assert (Ea : lN (PrimInt63.add (PrimInt63.land (PrimInt63.lsl x L1) Lmask) c) = lN (PrimInt63.land (PrimInt63.lsl x L1) Lmask) + lN c).
    { apply N2Z.inj. rewrite Zof_lN, add_spec, <- !Zof_lN, <- N2Z.inj_add. apply Z.mod_small.
      change wB with 9223372036854775808%Z. change (2 ^ 32) with 4294967296 in B. lia. }
    repeat split.
    + constructor; [|exact F]. unfold limb_ok. rewrite Ea. lia.
    + cbn. now rewrite L.
    + exact Q.
    + cbn [lval List.length]. rewrite Ea.
      replace (32 * N.of_nat (S (List.length l))) with (32 + 32 * N.of_nat (List.length l)) by (clear; lia).
      rewrite N.pow_add_r. nia.
Qed.

Section Poly.
  Context {S : Type} (add : S -> S -> S) (zero : S) (T : S -> S) (D : S -> Prop).
  Hypothesis L : linear add zero T D.
  Context (n : nat) (phi : N).
  Notation d := (32 * N.of_nat n).
  Hypothesis phi_0 : forall s, D s -> ev add zero T phi s = zero.
  (* phi without its leading term *)
  Context (phil : row).
  Hypothesis phil_def : phil = to_row n (N.lxor phi (2 ^ d)).
  Hypothesis phi_deg : N.lxor phi (2 ^ d) < 2 ^ d.
  Notation E := (ev add zero T).

  Lemma E_lxor p q s : E (N.lxor p q) s = add (E p s) (E q s).
  Proof. apply (l_ev_lxor add zero T D L). Qed.
  Lemma add_cancel a b : add (add a b) b = a.
  Proof. destruct L as [Lc La Lz Ls LT LD0 LDa LDT]. now rewrite <- La, Ls, Lz. Qed.
  Lemma add_z a : add zero a = a.
  Proof. destruct L as [Lc La Lz Ls LT LD0 LDa LDT]. now rewrite Lc. Qed.
  Lemma E_phil s : D s -> E (lval phil) s = N.iter d T s.
  Proof.
    intros Hs. rewrite phil_def, to_row_val by exact phi_deg. rewrite E_lxor, phi_0, add_z by exact Hs.
    apply ev_pow2.
  Qed.
  Lemma phil_ok : row_ok n phil. Proof. rewrite phil_def. apply to_row_ok. Qed.

  Definition xt (l : row) : row :=
    let '(r, c) := shl1 L0 l in if PrimInt63.eqb c L0 then r else lx phil r.
  Lemma lN_bit c : lN c <= 1 -> PrimInt63.eqb c L0 = true /\ lN c = 0 \/ PrimInt63.eqb c L0 = false /\ lN c = 1.
  Proof.
    intros H. destruct (PrimInt63.eqb c L0) eqn:Ec.
    - left. apply eqb_correct in Ec. split; [reflexivity|]. now rewrite Ec.
    - right. split; [reflexivity|]. assert (lN c <> 0); [|lia]. intros C. change 0 with (lN L0) in C. apply lN_inj in C.
      rewrite C in Ec. rewrite Uint63.eqb_refl in Ec. discriminate.
  Qed.
  Lemma pow2_lxor x k : x < 2 ^ k -> x + 2 ^ k = N.lxor x (2 ^ k).
  Proof.
    intros H. apply N.add_nocarry_lxor. apply N.bits_inj. intros i. rewrite N.land_spec, N.bits_0, N.pow2_bits_eqb.
    destruct (N.eqb_spec k i) as [->|Hn]; [|apply andb_false_r].
    now rewrite (proj1 (wf_testbit i x) H) by lia.
  Qed.
  Lemma xt_ok l : row_ok n l -> row_ok n (xt l).
  Proof.
    intros [Ll Fl]. unfold xt. destruct (shl1_spec l L0 Fl) as (F & Le & Q & V); [rewrite lN_0; lia|].
    destruct (shl1 L0 l) as [r c]. cbn [fst snd] in *.
    assert (R : row_ok n r) by (split; [congruence|exact F]).
    destruct (PrimInt63.eqb c L0); [exact R|]. apply lx_row; [apply phil_ok|exact R].
  Qed.
  Lemma xt_spec l s : row_ok n l -> D s -> E (lval (xt l)) s = E (lval l) (T s).
  Proof.
    intros [Ll Fl] Hs. unfold xt. destruct (shl1_spec l L0 Fl) as (F & Le & Q & V); [rewrite lN_0; lia|].
    destruct (shl1 L0 l) as [r c]. cbn [fst snd] in *. rewrite lN_0, N.add_0_r in V.
    assert (ED : E (2 * lval l) s = E (lval l) (T s)) by (rewrite <- N.double_spec; apply ev_double).
    destruct (lN_bit c Q) as [[-> Ec]|[-> Ec]]; rewrite Ec in V.
    - rewrite N.mul_0_r, N.add_0_r in V. now rewrite V.
    - rewrite lval_lx by (try exact F; apply phil_ok). rewrite E_lxor, E_phil by exact Hs.
      rewrite N.mul_1_r, Ll, pow2_lxor in V by (rewrite <- Ll, <- Le; apply lval_lt, F).
      rewrite <- ED, <- V, E_lxor. rewrite (ev_pow2 add zero T d s). destruct L as [Lc La Lz Ls LT LD0 LDa LDT]. apply Lc.
  Qed.

  (* ---- sums over the set bits of a limb ---- *)
  Fixpoint cs (rows : list row) (x : int) (acc : row) : row :=
    match rows with
    | [] => acc
    | r :: rs => cs rs (PrimInt63.lsr x L1) (if PrimInt63.eqb (PrimInt63.land x L1) L0 then acc else lx r acc)
    end.
  Lemma lN_odd x : PrimInt63.eqb (PrimInt63.land x L1) L0 = negb (N.odd (lN x)).
  Proof.
    assert (Hl : lN (PrimInt63.land x L1) = N.b2n (N.odd (lN x))).
    { rewrite lN_land. change (lN L1) with (N.ones 1). rewrite N.land_ones, <- N.bit0_odd. change (2 ^ 1) with 2. symmetry. apply N.bit0_mod. }
    destruct (lN_bit (PrimInt63.land x L1)) as [[-> Ec]|[-> Ec]]; rewrite ?Hl in *; destruct (N.odd (lN x)); cbn in *; auto; lia.
  Qed.
  Lemma lN_shr1 x : lN (PrimInt63.lsr x L1) = N.div2 (lN x).
  Proof.
    apply N2Z.inj. rewrite Zof_lN, lsr_spec, <- Zof_lN, N.div2_div. change (2 ^ to_Z L1)%Z with (Z.of_N 2). now rewrite N2Z.inj_div.
  Qed.
  (* rows k = F (U^k u), seen from the state s *)
  Definition rows_den (F U : S -> S) (rows : list row) (s u : S) : Prop :=
    forall i, (i < List.length rows)%nat -> E (lval (nth i rows [])) s = F (N.iter (N.of_nat i) U u).
  Lemma cs_ok rows : forall x acc, Forall (row_ok n) rows -> row_ok n acc -> row_ok n (cs rows x acc).
  Proof.
    induction rows as [|r rs IH]; intros x acc Hr Ha; [exact Ha|]. cbn [cs]. inversion Hr; subst. apply IH; [assumption|].
    destruct (PrimInt63.eqb _ _); [exact Ha|now apply lx_row].
  Qed.
  Lemma cs_spec (F U : S -> S) (DF : S -> Prop) s : F zero = zero -> (forall a b, DF a -> DF b -> F (add a b) = add (F a) (F b)) ->
    DF zero -> (forall a b, DF a -> DF b -> DF (add a b)) -> (forall a, DF a -> DF (U a)) ->
    forall rows x acc u, Forall (row_ok n) rows -> row_ok n acc -> DF u -> rows_den F U rows s u ->
    lN x < 2 ^ N.of_nat (List.length rows) ->
    E (lval (cs rows x acc)) s = add (E (lval acc) s) (F (ev add zero U (lN x) u)) /\ DF (ev add zero U (lN x) u).
  Proof.
    intros F0 Fa D0 Da DU. induction rows as [|r rs IH]; intros x acc u Hr Ha Hu Hd Hx.
    - cbn [List.length] in Hx. change (2 ^ N.of_nat 0) with 1 in Hx. assert (lN x = 0) as -> by lia.
      cbn [cs ev]. rewrite F0. destruct L as [Lc La Lz Ls LT LD0 LDa LDT]. split; [now rewrite Lz|exact D0].
    - inversion Hr as [|? ? Hr1 Hr2]; subst. cbn [cs].
      assert (Hx2 : lN (PrimInt63.lsr x L1) < 2 ^ N.of_nat (List.length rs)).
      { rewrite lN_shr1, N.div2_div. apply N.div_lt_upper_bound; [discriminate|].
        cbn [List.length] in Hx. rewrite Nat2N.inj_succ, N.pow_succ_r' in Hx. exact Hx. }
      assert (Hd2 : rows_den F U rs s (U u)).
      { intros i Hi. specialize (Hd (Datatypes.S i)). cbn [nth List.length] in Hd. rewrite Hd by lia.
        rewrite Nat2N.inj_succ, N.iter_succ, <- Niter_comm. reflexivity. }
      set (acc' := if PrimInt63.eqb (PrimInt63.land x L1) L0 then acc else lx r acc).
      assert (Ha' : row_ok n acc') by (unfold acc'; destruct (PrimInt63.eqb _ _); [exact Ha|now apply lx_row]).
      destruct (IH (PrimInt63.lsr x L1) acc' (U u) Hr2 Ha' (DU u Hu) Hd2 Hx2) as [-> Dv].
      rewrite lN_shr1 in *. unfold acc'. rewrite lN_odd. rewrite (N.div2_odd (lN x)) at 3 4.
      set (h := N.div2 (lN x)) in *.
      assert (Eh : ev add zero U (2 * h) u = ev add zero U h (U u)) by (rewrite <- N.double_spec; apply ev_double).
      destruct (N.odd (lN x)); cbn [N.b2n negb].
      + assert (Eo : ev add zero U (2 * h + 1) u = add u (ev add zero U h (U u))).
        { destruct h as [|p]; [cbn; destruct L as [Lc La Lz Ls LT LD0 LDa LDT]; now rewrite Lz|reflexivity]. }
        rewrite Eo, Fa by assumption. rewrite lval_lx by (apply Hr1 || apply Ha). rewrite E_lxor.
        specialize (Hd 0%nat). cbn [nth List.length] in Hd. rewrite Hd by lia. change (N.iter (N.of_nat 0) U u) with u.
        split; [|now apply Da]. destruct L as [Lc La Lz Ls LT LD0 LDa LDT]. rewrite (Lc (F u)). now rewrite La.
      + rewrite N.add_0_r, Eh. auto.
  Qed.

  (* rows l, f l, f (f l), ... *)
  Fixpoint rowsf (f : row -> row) (k : nat) (l : row) : list row :=
    match k with O => [] | Datatypes.S k => l :: rowsf f k (f l) end.
  Lemma rowsf_length f k : forall l, List.length (rowsf f k l) = k.
  Proof. induction k as [|k IH]; intros l; cbn; [reflexivity|now rewrite IH]. Qed.
  Lemma rowsf_ok f k : (forall l, row_ok n l -> row_ok n (f l)) -> forall l, row_ok n l -> Forall (row_ok n) (rowsf f k l).
  Proof. intros Hf. induction k as [|k IH]; intros l Hl; cbn; constructor; auto. Qed.
  Lemma rowsf_xt k l s : row_ok n l -> D s -> rows_den (E (lval l)) T (rowsf xt k l) s s.
  Proof.
    intros Hl Hs i Hi. rewrite rowsf_length in Hi. revert k l s Hl Hs Hi.
    induction i as [|i IH]; intros [|k] l s Hl Hs Hi; try lia; cbn [rowsf nth]; [reflexivity|].
    rewrite IH by (auto using xt_ok; lia). rewrite xt_spec by (auto; now apply (l_iter_D add zero T D L)).
    rewrite Nat2N.inj_succ, N.iter_succ. reflexivity.
  Qed.

  (* ---- multiplication by x^32 ---- *)
  Fixpoint splitlast (x : int) (l : row) : row * int :=
    match l with
    | [] => ([], x)
    | y :: l => let '(r, t) := splitlast y l in (x :: r, t)
    end.
  Lemma splitlast_spec l : forall x, limb_ok x -> Forall limb_ok l ->
    row_ok (List.length l) (fst (splitlast x l)) /\ limb_ok (snd (splitlast x l)) /\
    lval (fst (splitlast x l)) + 2 ^ (32 * N.of_nat (List.length l)) * lN (snd (splitlast x l)) = lN x + 2 ^ 32 * lval l.
  Proof.
    induction l as [|y l IH]; intros x Hx Hl; cbn [splitlast].
    - cbn [fst snd lval List.length]. change (2 ^ (32 * N.of_nat 0)) with 1. split; [split; [reflexivity|constructor]|].
      split; [exact Hx|lia].
    - inversion Hl; subst. destruct (IH y) as ([A1 A2] & B & C); [assumption..|].
      destruct (splitlast y l) as [r t]. cbn [fst snd] in *. split; [split; [cbn; congruence|now constructor]|].
      split; [exact B|]. cbn [lval List.length].
      replace (32 * N.of_nat (Datatypes.S (List.length l))) with (32 + 32 * N.of_nat (List.length l)) by (clear; lia).
      rewrite N.pow_add_r. nia.
  Qed.
  Definition xlimb (red : list row) (acc : row) : row :=
    let '(low, top) := splitlast L0 acc in cs red top low.
  Definition red_rows : list row := rowsf xt 32 phil.
  Lemma T_zero : T zero = zero. Proof. apply (l_T_0 add zero T D L). Qed.
  Lemma iterT_zero k : N.iter k T zero = zero.
  Proof. induction k as [|k IH] using N.peano_ind; [reflexivity|]. rewrite N.iter_succ, IH. apply T_zero. Qed.
  Lemma iterT_add k a b : D a -> D b -> N.iter k T (add a b) = add (N.iter k T a) (N.iter k T b).
  Proof.
    intros Ha Hb. induction k as [|k IH] using N.peano_ind; [reflexivity|]. rewrite !N.iter_succ, IH.
    apply (l_T _ _ _ _ L); apply (l_iter_D add zero T D L); assumption.
  Qed.
  Lemma red_den s : D s -> rows_den (fun y => N.iter d T y) T red_rows s s.
  Proof.
    intros Hs i Hi. unfold red_rows in *. rewrite (rowsf_xt 32 phil s phil_ok Hs i Hi).
    apply E_phil. now apply (l_iter_D add zero T D L).
  Qed.
  Lemma red_ok : Forall (row_ok n) red_rows.
  Proof. apply rowsf_ok; [apply xt_ok|apply phil_ok]. Qed.
  Lemma xlimb_ok acc : row_ok n acc -> row_ok n (xlimb red_rows acc).
  Proof.
    intros [Ll Fa]. unfold xlimb. destruct (splitlast_spec acc L0 ltac:(unfold limb_ok; reflexivity) Fa) as (R & B & C).
    destruct (splitlast L0 acc) as [low top]. cbn [fst snd] in *. rewrite Ll in R. apply cs_ok; [apply red_ok|exact R].
  Qed.
  Lemma xlimb_spec acc s : row_ok n acc -> D s -> E (lval (xlimb red_rows acc)) s = N.iter 32 T (E (lval acc) s).
  Proof.
    intros [Ll Fa] Hs. unfold xlimb. destruct (splitlast_spec acc L0 ltac:(unfold limb_ok; reflexivity) Fa) as (R & B & C).
    destruct (splitlast L0 acc) as [low top]. cbn [fst snd] in *. rewrite Ll in R, C. rewrite lN_0, N.add_0_l in C.
    destruct (cs_spec (fun y => N.iter d T y) T D s (iterT_zero d) (iterT_add d)) with (rows := red_rows) (x := top) (acc := low) (u := s) as [-> _];
      try (destruct L as [Lc La Lz Ls LT LD0 LDa LDT]; assumption); try exact R; try exact Hs; try apply red_ok; try (apply red_den; exact Hs).
    assert (A : forall x y w s, x < 2 ^ w -> D s -> E (x + 2 ^ w * y) s = add (E x s) (E y (N.iter w T s))).
    { intros x y w s' Hx Hs'. destruct L as [Lc La Lz Ls LT LD0 LDa LDT]. now apply ev_lor_shift. }
    assert (Ct : forall v k s, D s -> N.iter k T (E v s) = E v (N.iter k T s)).
    { intros v k s' Hs'. induction k as [|k IH] using N.peano_ind; [reflexivity|]. rewrite !N.iter_succ, IH.
      symmetry. apply (l_ev_T add zero T D L). now apply (l_iter_D add zero T D L). }
    rewrite !Ct by exact Hs.
    replace (E (lval low) s) with (E (lval low) s) by reflexivity.
    rewrite <- A; [|destruct R as [R1 R2]; rewrite <- R1; now apply lval_lt|exact Hs]. rewrite C.
    replace (2 ^ 32 * lval acc) with (0 + 2 ^ 32 * lval acc) by lia. rewrite A by (try exact Hs; reflexivity).
    cbn [ev]. apply add_z.
  Qed.

  (* ---- products ---- *)
  Fixpoint mulr (red rq : list row) (p : row) : row :=
    match p with
    | [] => repeat L0 n
    | x :: p => cs rq x (xlimb red (mulr red rq p))
    end.
  Lemma zeros_ok : row_ok n (repeat L0 n).
  Proof.
    split; [apply repeat_length|]. apply Forall_forall. intros x Hx. apply repeat_spec in Hx. subst. unfold limb_ok. reflexivity.
  Qed.
  Lemma zeros_val k : lval (repeat L0 k) = 0.
  Proof. induction k as [|k IH]; [reflexivity|]. cbn [repeat lval]. rewrite IH. reflexivity. Qed.
  Lemma mulr_ok q p : row_ok n q -> row_ok n (mulr red_rows (rowsf xt 32 q) p).
  Proof.
    intros Hq. induction p as [|x p IH]; cbn [mulr]; [apply zeros_ok|].
    apply cs_ok; [apply rowsf_ok; [apply xt_ok|exact Hq]|now apply xlimb_ok].
  Qed.
  Lemma mulr_spec q p s : row_ok n q -> Forall limb_ok p -> D s ->
    E (lval (mulr red_rows (rowsf xt 32 q) p)) s = E (lval q) (E (lval p) s).
  Proof.
    intros Hq Hp Hs. induction Hp as [|x p Hx Hp IH]; cbn [mulr].
    - rewrite zeros_val. cbn [ev lval]. symmetry. apply (l_ev_0 add zero T D L).
    - destruct (cs_spec (E (lval q)) T D s (l_ev_0 add zero T D L (lval q)) (fun a b => l_ev_add add zero T D L (lval q) a b))
        with (rows := rowsf xt 32 q) (x := x) (acc := xlimb red_rows (mulr red_rows (rowsf xt 32 q) p)) (u := s) as [-> _];
        try (destruct L as [Lc La Lz Ls LT LD0 LDa LDT]; assumption); try exact Hs.
      + apply rowsf_ok; [apply xt_ok|exact Hq].
      + apply xlimb_ok, mulr_ok, Hq.
      + now apply rowsf_xt.
      + rewrite xlimb_spec by (auto using mulr_ok). rewrite IH. cbn [lval].
        assert (A : E (lN x + 2 ^ 32 * lval p) s = add (E (lN x) s) (E (lval p) (N.iter 32 T s))).
        { destruct L as [Lc La Lz Ls LT LD0 LDa LDT]. now apply ev_lor_shift. }
        rewrite A.
        assert (Ct : forall v k s, D s -> N.iter k T (E v s) = E v (N.iter k T s)).
        { intros v k s' Hs'. induction k as [|k IHk] using N.peano_ind; [reflexivity|]. rewrite !N.iter_succ, IHk.
          symmetry. apply (l_ev_T add zero T D L). now apply (l_iter_D add zero T D L). }
        rewrite l_ev_add with (D := D) by (try exact L; apply (l_ev_D add zero T D L); try apply (l_iter_D add zero T D L); exact Hs).
        rewrite !Ct by (try exact Hs; now apply (l_ev_D add zero T D L)). destruct L as [Lc La Lz Ls LT LD0 LDa LDT]. apply Lc.
  Qed.

  (* ---- squares ---- *)
  Definition T2 (s : S) : S := T (T s).
  Lemma evp_T2 p : forall s, D s -> evp add T2 p s = evp add T p (evp add T p s).
  Proof.
    assert (ET : forall p s, D s -> evp add T p (T s) = T (evp add T p s)) by (intros q s Hs; apply (l_ev_T add zero T D L (Npos q)); exact Hs).
    assert (EA : forall p a b, D a -> D b -> evp add T p (add a b) = add (evp add T p a) (evp add T p b)) by (intros q a b Ha Hb; apply (l_ev_add add zero T D L (Npos q)); assumption).
    assert (ED : forall p s, D s -> D (evp add T p s)) by (intros q s Hs; apply (l_ev_D add zero T D L (Npos q)); exact Hs).
    assert (DT : forall s, D s -> D (T s)) by (destruct L as [Lc La Lz Ls LT LD0 LDa LDT]; assumption).
    induction p as [p IH|p IH|]; intros s Hs; cbn [evp].
    - unfold T2 at 2. rewrite IH by auto. rewrite (ET p (T s)) by auto. set (a := evp add T p (T s)).
      assert (Da : D a) by (apply ED; auto).
      rewrite (l_T _ _ _ _ L), EA by auto. fold a. set (b := evp add T p (T a)).
      rewrite <- (l_assoc _ _ _ _ L s a), (l_assoc _ _ _ _ L a a b), (l_self _ _ _ _ L). now rewrite add_z.
    - unfold T2 at 2. rewrite IH by auto. rewrite !ET by auto. reflexivity.
    - reflexivity.
  Qed.
  Lemma ev_T2 v s : D s -> ev add zero T2 v s = E v (E v s).
  Proof. destruct v as [|p]; [intros _; reflexivity|apply evp_T2]. Qed.
  Lemma T2_linear : linear add zero T2 D.
  Proof.
    destruct L as [Lc La Lz Ls LT LD0 LDa LDT]. constructor; auto; unfold T2; [|auto].
    intros a b Ha Hb. now rewrite !LT by auto.
  Qed.
  Definition xt2 (l : row) : row := xt (xt l).
  Lemma xt2_ok l : row_ok n l -> row_ok n (xt2 l).
  Proof. intros H. now apply xt_ok, xt_ok. Qed.
  (* k chunks of m rows each: l, l x^2, l x^4, ... *)
  Fixpoint chunksm (m k : nat) (l : row) : list (list row) :=
    match k with
    | O => []
    | Datatypes.S k => let c := rowsf xt2 m l in c :: chunksm m k (xt2 (last c l))
    end.
  Definition chunks : nat -> row -> list (list row) := chunksm 32.
  Lemma Natiter_comm {A} (f : A -> A) m l : Nat.iter m f (f l) = f (Nat.iter m f l).
  Proof. induction m as [|m IH]; [reflexivity|]. exact (f_equal f IH). Qed.
  Lemma rowsf_last f m : forall l e, last (rowsf f (Datatypes.S m) l) e = Nat.iter m f l.
  Proof.
    induction m as [|m IH]; intros l e; [reflexivity|].
    change (rowsf f (Datatypes.S (Datatypes.S m)) l) with (l :: rowsf f (Datatypes.S m) (f l)).
    transitivity (last (rowsf f (Datatypes.S m) (f l)) e); [reflexivity|]. rewrite IH.
    apply Natiter_comm.
  Qed.
  Lemma iter_xt2_ok m l : row_ok n l -> row_ok n (Nat.iter m xt2 l).
  Proof. intros H. induction m as [|m IH]; [exact H|]. cbn. now apply xt2_ok. Qed.
  Lemma iter_xt2_spec m l s : row_ok n l -> D s -> E (lval (Nat.iter m xt2 l)) s = E (lval l) (N.iter (N.of_nat m) T2 s).
  Proof.
    intros Hl. revert s. induction m as [|m IH]; intros s Hs; [reflexivity|].
    assert (DT : forall s, D s -> D (T s)) by (apply L).
    cbn [Nat.iter nat_rect]. fold (Nat.iter m xt2 l). unfold xt2 at 1.
    rewrite !xt_spec by (auto using xt_ok, iter_xt2_ok). change (T (T s)) with (T2 s).
    rewrite IH by (unfold T2; auto). rewrite Nat2N.inj_succ, N.iter_succ, Niter_comm. reflexivity.
  Qed.
  Lemma rowsf_nth f k : forall i l, (i < k)%nat -> nth i (rowsf f k l) [] = Nat.iter i f l.
  Proof.
    induction k as [|k IH]; intros i l Hi; [lia|]. destruct i as [|i]; [reflexivity|]. cbn [rowsf nth].
    rewrite IH by lia. apply Natiter_comm.
  Qed.
  Fixpoint csl (p : row) (ch : list (list row)) (acc : row) : row :=
    match p, ch with
    | x :: p, c :: ch => csl p ch (cs c x acc)
    | _, _ => acc
    end.
  Lemma chunksm_S m k l : chunksm (Datatypes.S m) (Datatypes.S k) l =
    rowsf xt2 (Datatypes.S m) l :: chunksm (Datatypes.S m) k (Nat.iter (Datatypes.S m) xt2 l).
  Proof. cbn [chunksm]. now rewrite rowsf_last. Qed.
  Lemma csl_ok m p : forall k l acc, row_ok n l -> row_ok n acc -> row_ok n (csl p (chunksm (Datatypes.S m) k l) acc).
  Proof.
    induction p as [|x p IH]; intros [|k] l acc Hl Ha; try exact Ha. rewrite chunksm_S. cbn [csl].
    apply IH; [apply iter_xt2_ok, Hl|]. apply cs_ok; [|exact Ha]. apply rowsf_ok; [apply xt2_ok|exact Hl].
  Qed.
  Lemma csl_spec m p (Hm : N.of_nat (Datatypes.S m) = 32) : forall k l acc s, Forall limb_ok p -> List.length p = k -> row_ok n l -> row_ok n acc -> D s ->
    E (lval (csl p (chunksm (Datatypes.S m) k l) acc)) s = add (E (lval acc) s) (E (lval l) (ev add zero T2 (lval p) s)).
  Proof.
    assert (L2 := T2_linear).
    enough (G : forall p k l acc s u, Forall limb_ok p -> List.length p = k -> row_ok n l -> row_ok n acc -> D s -> D u ->
      forall F, F zero = zero -> (forall a b, D a -> D b -> F (add a b) = add (F a) (F b)) ->
      (forall m, E (lval (Nat.iter m xt2 l)) s = F (N.iter (N.of_nat m) T2 u)) ->
      E (lval (csl p (chunksm (Datatypes.S m) k l) acc)) s = add (E (lval acc) s) (F (ev add zero T2 (lval p) u))).
    { intros k l acc s Hp Hk Hl Ha Hs. apply (G p k l acc s s Hp Hk Hl Ha Hs Hs (E (lval l))).
      - apply (l_ev_0 add zero T D L).
      - intros a b. apply (l_ev_add add zero T D L).
      - intros j. now apply iter_xt2_spec. }
    clear p. induction p as [|x p IH]; intros k l acc s u Hp Hk Hl Ha Hs Hu F F0 Fa HF.
    - cbn [csl lval ev]. rewrite F0. destruct k; cbn [chunksm csl]; symmetry; apply (l_0_r _ _ _ _ L).
    - destruct k as [|k]; [discriminate|]. inversion Hp as [|? ? Hx Hp']; subst. injection Hk as Hk.
      rewrite chunksm_S. cbn [csl].
      assert (Hc : row_ok n (cs (rowsf xt2 (Datatypes.S m) l) x acc)) by (apply cs_ok; [apply rowsf_ok; [apply xt2_ok|exact Hl]|exact Ha]).
      rewrite (IH k (Nat.iter (Datatypes.S m) xt2 l) _ s (N.iter 32 T2 u)) with (F := F); auto.
      + destruct (cs_spec F T2 D s F0 Fa) with (rows := rowsf xt2 (Datatypes.S m) l) (x := x) (acc := acc) (u := u) as [-> _]; auto;
          try apply L2.
        * apply rowsf_ok; [apply xt2_ok|exact Hl].
        * intros i Hi. rewrite rowsf_length in Hi. rewrite rowsf_nth by exact Hi. apply HF.
        * rewrite rowsf_length, Hm. exact Hx.
        * cbn [lval].
          assert (A : ev add zero T2 (lN x + 2 ^ 32 * lval p) u = add (ev add zero T2 (lN x) u) (ev add zero T2 (lval p) (N.iter 32 T2 u))).
          { destruct L2. apply ev_lor_shift; auto. }
          rewrite A, Fa, (l_assoc _ _ _ _ L); [reflexivity|..]; apply (l_ev_D add zero T2 D L2); [exact Hu|].
          now apply (l_iter_D add zero T2 D L2).
      + apply iter_xt2_ok, Hl.
      + now apply (l_iter_D add zero T2 D L2).
      + intros j. assert (Em : Nat.iter j xt2 (Nat.iter (Datatypes.S m) xt2 l) = Nat.iter (j + Datatypes.S m) xt2 l).
        { clear. induction j as [|j IHj]; [reflexivity|]. exact (f_equal xt2 IHj). }
        rewrite Em, HF. rewrite Nat2N.inj_add, Hm, N.add_comm, Niter_add. reflexivity.
  Qed.
  Definition one_row : row := to_row n 1.
  Definition sqr (ch : list (list row)) (p : row) : row := csl p ch (repeat L0 n).
  Hypothesis n_pos : (0 < n)%nat.
  Lemma one_val : lval one_row = 1.
  Proof.
    unfold one_row. apply to_row_val. apply (N.pow_lt_mono_r 2 0); lia.
  Qed.
  Lemma sqr_ok p : row_ok n (sqr (chunks n one_row) p).
  Proof. apply csl_ok; [apply to_row_ok|apply zeros_ok]. Qed.
  Lemma sqr_spec p s : row_ok n p -> D s -> E (lval (sqr (chunks n one_row) p)) s = E (lval p) (E (lval p) s).
  Proof.
    intros [Lp Fp] Hs. unfold sqr, chunks. rewrite (csl_spec 31) by (auto using zeros_ok; apply to_row_ok).
    rewrite zeros_val, one_val, ev_T2 by exact Hs. cbn [ev evp]. apply add_z.
  Qed.

  (* ---- powers ---- *)
  Definition is_pow (l : row) (m : N) : Prop := row_ok n l /\ forall s, D s -> E (lval l) s = N.iter m T s.
  Lemma is_pow_sqr l m : is_pow l m -> is_pow (sqr (chunks n one_row) l) (2 * m).
  Proof.
    intros [Hl H]. split; [apply sqr_ok|]. intros s Hs. rewrite sqr_spec by assumption.
    rewrite !H by (try apply (l_ev_D add zero T D L); exact Hs). rewrite <- Niter_add. f_equal. lia.
  Qed.
  Lemma is_pow_mul p q a b : is_pow p a -> is_pow q b -> is_pow (mulr red_rows (rowsf xt 32 q) p) (a + b).
  Proof.
    intros [Hp P] [Hq Q]. split; [now apply mulr_ok|]. intros s Hs. rewrite mulr_spec by (try apply Hp; assumption).
    rewrite Q, P by (try apply (l_ev_D add zero T D L); exact Hs). rewrite <- Niter_add. reflexivity.
  Qed.
  Fixpoint sqn (ch : list (list row)) (k : nat) (p : row) : row :=
    match k with O => p | Datatypes.S k => sqn ch k (sqr ch p) end.
  Lemma is_pow_sqn k : forall l m, is_pow l m -> is_pow (sqn (chunks n one_row) k l) (m * 2 ^ N.of_nat k).
  Proof.
    induction k as [|k IH]; intros l m H; cbn [sqn]; [now rewrite N.mul_1_r|].
    rewrite Nat2N.inj_succ, N.pow_succ_r', N.mul_assoc, (N.mul_comm m 2). apply IH. now apply is_pow_sqr.
  Qed.
  Fixpoint pown (red : list row) (ch : list (list row)) (rp : list row) (p : row) (e : positive) : row :=
    match e with
    | xH => p
    | xO e => sqr ch (pown red ch rp p e)
    | xI e => mulr red rp (sqr ch (pown red ch rp p e))
    end.
  Lemma is_pow_pown p m e : is_pow p m -> is_pow (pown red_rows (chunks n one_row) (rowsf xt 32 p) p e) (m * Npos e).
  Proof.
    intros Hp. induction e as [e IH|e IH|]; cbn [pown].
    - replace (m * N.pos e~1) with (2 * (m * N.pos e) + m) by lia. apply is_pow_mul; [now apply is_pow_sqr|exact Hp].
    - replace (m * N.pos e~0) with (2 * (m * N.pos e)) by lia. now apply is_pow_sqr.
    - now rewrite N.mul_1_r.
  Qed.
End Poly.

(* ---- the checks ---- *)
Section Checks.
  Context (n : nat) (phi : N).
  Notation d := (32 * N.of_nat n).
  Definition fits (v : N) : bool := v <? 2 ^ d.
  Definition phil_of : row := to_row n (N.lxor phi (2 ^ d)).
  Definition phi_ok : bool := (0 <? n)%nat && fits (N.lxor phi (2 ^ d)).
  (* p * q = r modulo phi *)
  Definition mul_check (p q r : N) : bool :=
    let ph := phil_of in
    fits p && fits q && fits r && phi_ok &&
    row_eqb (mulr n (red_rows ph) (rowsf (xt ph) 32 (to_row n q)) (to_row n p)) (to_row n r).
  (* p^(2^k) = r *)
  Definition sq_check (k : nat) (p r : N) : bool :=
    let ph := phil_of in
    let ch := chunks ph n (one_row n) in
    fits p && fits r && phi_ok && row_eqb (sqn n ch k (to_row n p)) (to_row n r).
  (* p^e = r *)
  Definition pow_check (e : positive) (p r : N) : bool :=
    let ph := phil_of in
    let ch := chunks ph n (one_row n) in
    let red := red_rows ph in
    let p' := to_row n p in
    let rp := rowsf (xt ph) 32 p' in
    fits p && fits r && phi_ok && row_eqb (pown n red ch rp p' e) (to_row n r).

  Context {S : Type} (add : S -> S -> S) (zero : S) (T : S -> S) (D : S -> Prop).
  Hypothesis L : linear add zero T D.
  Hypothesis phi_0 : forall s, D s -> ev add zero T phi s = zero.
  Notation E := (ev add zero T).
  Definition powN (p m : N) : Prop := forall s, D s -> E p s = N.iter m T s.
  Lemma phi_ok_spec : phi_ok = true -> (0 < n)%nat /\ N.lxor phi (2 ^ d) < 2 ^ d.
  Proof. unfold phi_ok, fits. intros H. apply andb_prop in H as [A B]. split; [now apply Nat.ltb_lt|now apply N.ltb_lt]. Qed.
  Lemma mul_check_spec p q r s : mul_check p q r = true -> D s -> E r s = E q (E p s).
  Proof.
    unfold mul_check. intros H Hs. apply andb_prop in H as [H Hr]. apply andb_prop in H as [H Hphi].
    apply andb_prop in H as [H Fr]. apply andb_prop in H as [Fp Fq].
    apply row_eqb_eq in Hr. apply phi_ok_spec in Hphi as [Hn Hd]. apply N.ltb_lt in Fp, Fq, Fr.
    rewrite <- (to_row_val n r Fr), <- Hr.
    rewrite (mulr_spec add zero T D L n phi phi_0 phil_of eq_refl Hd _ _ s (to_row_ok n q)) by (try exact Hs; apply to_row_ok).
    now rewrite !to_row_val.
  Qed.
  Lemma powN_row p m : fits p = true -> powN p m -> is_pow add zero T D n (to_row n p) m.
  Proof.
    intros F H. apply N.ltb_lt in F. split; [apply to_row_ok|]. intros s Hs. rewrite to_row_val by exact F. now apply H.
  Qed.
  Lemma row_powN r m : fits r = true -> is_pow add zero T D n (to_row n r) m -> powN r m.
  Proof. intros F [_ H] s Hs. apply N.ltb_lt in F. rewrite <- (to_row_val n r F). now apply H. Qed.
  Lemma mul_check_pow p q r a b c : powN p a -> powN q b -> mul_check p q r = true -> a + b = c -> powN r c.
  Proof.
    intros P Q H <- s Hs. rewrite (mul_check_spec p q r s H Hs), P, Q by (try (apply (l_iter_D add zero T D L)); exact Hs).
    rewrite Niter_add. reflexivity.
  Qed.
  Lemma sq_check_pow k p r a c : powN p a -> sq_check k p r = true -> a * 2 ^ N.of_nat k = c -> powN r c.
  Proof.
    unfold sq_check. intros P H <-. apply andb_prop in H as [H Hr]. apply andb_prop in H as [H Hphi]. apply andb_prop in H as [Fp Fr].
    apply row_eqb_eq in Hr. apply phi_ok_spec in Hphi as [Hn Hd]. apply row_powN; [exact Fr|]. rewrite <- Hr.
    apply (is_pow_sqn add zero T D L n phi phi_0 phil_of eq_refl Hd Hn). now apply powN_row.
  Qed.
  Lemma pow_check_pow e p r a c : powN p a -> pow_check e p r = true -> a * Npos e = c -> powN r c.
  Proof.
    unfold pow_check. intros P H <-. apply andb_prop in H as [H Hr]. apply andb_prop in H as [H Hphi]. apply andb_prop in H as [Fp Fr].
    apply row_eqb_eq in Hr. apply phi_ok_spec in Hphi as [Hn Hd]. apply row_powN; [exact Fr|]. rewrite <- Hr.
    apply (is_pow_pown add zero T D L n phi phi_0 phil_of eq_refl Hd Hn). now apply powN_row.
  Qed.
  Lemma jump_check w ws k s :
    forallb (fun x => x <? 2 ^ N.of_nat w) ws = true -> sq_check k 2 (words_val w ws) = true -> D s ->
    jump_loop add zero T w ws s = N.iter (2 ^ N.of_nat k) T s.
  Proof.
    intros Hw Hc Ds. destruct L as [Lc La Lz Ls LT LD0 LDa LDT].
    rewrite (jump_loop_ev add zero T D); auto.
    - apply (sq_check_pow k 2 _ 1 _); [intros u _; reflexivity|exact Hc|apply N.mul_1_l|exact Ds].
    - apply Forall_forall. intros x Hx. rewrite forallb_forall in Hw. now apply N.ltb_lt, Hw.
  Qed.
  Lemma powN_x : powN 2 1.
  Proof. intros s Hs. reflexivity. Qed.
End Checks.
