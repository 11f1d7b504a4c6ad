(* Little-endian arrays of W-bit words: value, conversion, increment with
   carry, addition with carry. *)
From Verif Require Import Word.
From Coq Require Import ZifyBool ZifyNat ZifyN.
Open Scope N_scope.

Fixpoint lv (w : N) (l : list N) : N := match l with [] => 0 | x :: l => x + 2 ^ w * lv w l end.
Fixpoint to_words (w : N) (k : nat) (v : N) : list N :=
  match k with O => [] | S k => v mod 2 ^ w :: to_words w k (v / 2 ^ w) end.

Lemma lv_lt w l : Forall (wf w) l -> lv w l < 2 ^ (w * N.of_nat (length l)).
Proof.
  induction 1 as [|x l Hx Hl IH]; [cbn [lv length]; change (N.of_nat 0) with 0; rewrite N.mul_0_r; cbn; lia|]. cbn [lv length].
  replace (w * N.of_nat (S (length l))) with (w + w * N.of_nat (length l)) by lia. rewrite N.pow_add_r.
  unfold wf in Hx. revert IH Hx. generalize (lv w l) (2 ^ (w * N.of_nat (length l))) (2 ^ w). clear. intros; nia.
Qed.
Lemma to_words_length w k : forall v, length (to_words w k v) = k.
Proof. induction k as [|k IH]; intros v; cbn; [reflexivity|now rewrite IH]. Qed.
Lemma to_words_wf w k : forall v, Forall (wf w) (to_words w k v).
Proof.
  induction k as [|k IH]; intros v; cbn [to_words]; constructor; [|apply IH].
  unfold wf. apply N.mod_lt, pow2_nz.
Qed.
Lemma to_words_val w k : forall v, lv w (to_words w k v) = v mod 2 ^ (w * N.of_nat k).
Proof.
  induction k as [|k IH]; intros v; cbn [to_words lv].
  - change (N.of_nat 0) with 0. rewrite N.mul_0_r. cbn. now rewrite N.mod_1_r.
  - rewrite IH. replace (w * N.of_nat (S k)) with (w + w * N.of_nat k) by lia. rewrite N.pow_add_r.
    rewrite N.mod_mul_r by apply pow2_nz. reflexivity.
Qed.
Lemma lv_inj w l : forall m, length l = length m -> Forall (wf w) l -> Forall (wf w) m -> lv w l = lv w m -> l = m.
Proof.
  induction l as [|x l IH]; intros [|y m] Hlen Hl Hm E; try discriminate; [reflexivity|].
  inversion Hl as [|? ? Hx Hl']; inversion Hm as [|? ? Hy Hm']; subst. cbn [lv] in E. unfold wf in Hx, Hy.
  assert (X : x = y).
  { apply (f_equal (fun z => z mod 2 ^ w)) in E. rewrite !(N.mul_comm (2 ^ w)), !N.mod_add in E by apply pow2_nz.
    now rewrite !N.mod_small in E by assumption. }
  subst y. f_equal. apply IH; try assumption; [cbn in Hlen; lia|].
  pose proof (pow2_pos w) as P. revert E P. generalize (2 ^ w) (lv w l) (lv w m). clear. intros; nia.
Qed.
Lemma to_words_lv w l k : length l = k -> Forall (wf w) l -> to_words w k (lv w l) = l.
Proof.
  intros Hk Hl. apply (lv_inj w); [now rewrite to_words_length|apply to_words_wf|exact Hl|].
  rewrite to_words_val. apply N.mod_small. rewrite <- Hk. now apply lv_lt.
Qed.
Lemma to_words_mod w k v : to_words w k (v mod 2 ^ (w * N.of_nat k)) = to_words w k v.
Proof.
  apply (lv_inj w); rewrite ?to_words_length; auto using to_words_wf. rewrite !to_words_val.
  apply N.mod_mod, pow2_nz.
Qed.

(* increment with carry *)
Fixpoint incr (w : N) (l : list N) : list N :=
  match l with
  | [] => []
  | x :: l => let y := wadd w x 1 in if y =? 0 then y :: incr w l else y :: l
  end.
Lemma incr_length w l : length (incr w l) = length l.
Proof. induction l as [|x l IH]; cbn; [reflexivity|]. destruct (_ =? _); cbn; now rewrite ?IH. Qed.
Lemma incr_wf w l : Forall (wf w) l -> Forall (wf w) (incr w l).
Proof.
  induction 1 as [|x l Hx Hl IH]; [constructor|]. cbn [incr]. destruct (_ =? _); constructor; auto using wf_wadd.
Qed.
Lemma digit_add w x y c : wf w x -> x + c = y + 2 ^ w -> y < 2 ^ w -> wadd w x c = y.
Proof.
  intros Hx E Hy. unfold wadd. rewrite E. rewrite <- (N.mul_1_l (2 ^ w)) at 1. rewrite N.mod_add by apply pow2_nz. now apply N.mod_small.
Qed.
Lemma mod_mul_tail B M x v : B <> 0 -> M <> 0 -> x < B -> x + B * (v mod M) = (x + B * v) mod (B * M).
Proof.
  intros HB HM Hx. rewrite N.mod_mul_r by assumption.
  rewrite (N.mul_comm B v), N.mod_add, N.div_add by assumption.
  rewrite (N.mod_small x), (N.div_small x) by exact Hx. reflexivity.
Qed.
Lemma incr_val w l : 0 < w -> Forall (wf w) l -> lv w (incr w l) = (lv w l + 1) mod 2 ^ (w * N.of_nat (length l)).
Proof.
  intros Hw. induction 1 as [|x l Hx Hl IH].
  - cbn [incr lv length]. change (N.of_nat 0) with 0. rewrite N.mul_0_r. reflexivity.
  - cbn [incr length]. replace (w * N.of_nat (S (length l))) with (w + w * N.of_nat (length l)) by lia. rewrite N.pow_add_r.
    assert (B1 : 1 < 2 ^ w) by (apply (N.pow_lt_mono_r 2 0); lia).
    pose proof (lv_lt w l Hl) as Lt. unfold wf in Hx.
    destruct (N.eq_dec (x + 1) (2 ^ w)) as [E|E].
    + assert (Y : wadd w x 1 = 0) by (unfold wadd; rewrite E; apply N.mod_same, pow2_nz).
      rewrite Y. cbn [N.eqb lv]. rewrite IH. rewrite mod_mul_tail by (try apply pow2_nz; apply pow2_pos).
      f_equal. rewrite N.mul_add_distr_l. revert E. generalize (2 ^ w * lv w l). generalize (2 ^ w). clear. lia.
    + assert (Y : wadd w x 1 = x + 1) by (unfold wadd; apply N.mod_small; lia).
      rewrite Y. destruct (N.eqb_spec (x + 1) 0) as [Z|Z]; [lia|]. cbn [lv].
      replace (x + 2 ^ w * lv w l + 1) with (x + 1 + 2 ^ w * lv w l) by lia.
      rewrite <- mod_mul_tail by (try apply pow2_nz; lia). now rewrite N.mod_small by exact Lt.
Qed.

(* the addition loop of philox.c / threefry.c:16-27:
     last = ctr[i]; ctr[i] += adj + carry;
     carry = last > ctr[i] || ((adj + carry) == 0 && adj > 0) *)
Fixpoint addloop (w : N) (ctr adj : list N) (carry : bool) : list N :=
  match ctr, adj with
  | c :: ctr, a :: adj =>
      let t := wadd w a (N.b2n carry) in
      let c1 := wadd w c t in
      c1 :: addloop w ctr adj ((c1 <? c) || ((t =? 0) && (0 <? a)))
  | _, _ => ctr
  end.
Lemma addloop_length w l : forall a k, length (addloop w l a k) = length l.
Proof. induction l as [|x l IH]; intros [|y a] k; cbn; auto. Qed.
Lemma addloop_wf w l : forall a k, Forall (wf w) l -> Forall (wf w) (addloop w l a k).
Proof. induction l as [|x l IH]; intros [|y a] k Hl; cbn [addloop]; auto. inversion Hl; subst. constructor; [apply wf_wadd|auto]. Qed.
Lemma digit_carry w c a k : 0 < w -> wf w c -> wf w a ->
  let t := wadd w a (N.b2n k) in
  let c1 := wadd w c t in
  c + a + N.b2n k = c1 + 2 ^ w * N.b2n ((c1 <? c) || ((t =? 0) && (0 <? a))).
Proof.
  intros Hw Hc Ha. cbn zeta. unfold wf, wadd in *.
  assert (B1 : 1 < 2 ^ w) by (apply (N.pow_lt_mono_r 2 0); lia).
  revert Hc Ha B1. generalize (2 ^ w). intros B Hc Ha B1. clear Hw w.
  assert (K : N.b2n k <= 1) by (destruct k; cbn; lia). set (kk := N.b2n k) in *. clearbody kk. clear k.
  destruct (N.lt_ge_cases (a + kk) B) as [H|H].
  - rewrite (N.mod_small (a + kk)) by exact H.
    destruct (N.lt_ge_cases (c + (a + kk)) B) as [H2|H2].
    + rewrite N.mod_small by exact H2.
      replace (c + (a + kk) <? c) with false by lia.
      replace ((a + kk =? 0) && (0 <? a)) with false by lia. cbn. lia.
    + replace ((c + (a + kk)) mod B) with (c + (a + kk) - B).
      2:{ symmetry. replace (c + (a + kk)) with (c + (a + kk) - B + 1 * B) at 1 by lia. rewrite N.mod_add by lia. apply N.mod_small. lia. }
      replace (c + (a + kk) - B <? c) with true by lia. cbn [orb N.b2n]. lia.
  - assert (E : a + kk = B) by lia. rewrite E, N.mod_same, N.add_0_r by lia. rewrite (N.mod_small c) by exact Hc.
    rewrite N.ltb_irrefl. replace ((0 =? 0) && (0 <? a)) with true by lia. cbn. lia.
Qed.
Lemma addloop_val w : 0 < w -> forall l a k, length a = length l -> Forall (wf w) l -> Forall (wf w) a ->
  lv w (addloop w l a k) = (lv w l + lv w a + N.b2n k) mod 2 ^ (w * N.of_nat (length l)).
Proof.
  intros Hw. induction l as [|c l IH]; intros [|x a] k Hlen Hl Ha; try discriminate.
  - cbn [addloop lv length]. change (N.of_nat 0) with 0. rewrite N.mul_0_r. cbn. now rewrite N.mod_1_r.
  - inversion Hl as [|? ? Hc Hl']; inversion Ha as [|? ? Hx Ha']; subst. cbn [addloop lv length].
    pose proof (digit_carry w c x k Hw Hc Hx) as D. cbn zeta in D.
    rewrite IH by (auto; cbn in Hlen; lia).
    replace (w * N.of_nat (S (length l))) with (w + w * N.of_nat (length l)) by lia. rewrite N.pow_add_r.
    rewrite mod_mul_tail by (try apply pow2_nz; apply wf_wadd). f_equal.
    rewrite !N.mul_add_distr_l. revert D. generalize (2 ^ w * lv w l) (2 ^ w * lv w a). clear. lia.
Qed.

(* dividing a multi-word integer by 2^lg: the adj_step words *)
Fixpoint adjs (w lg : N) (l : list N) : list N :=
  match l with
  | [] => []
  | x :: r =>
      match r with
      | [] => [x / 2 ^ lg]
      | y :: _ => wadd w (x / 2 ^ lg) (wshl w (y mod 2 ^ lg) (w - lg)) :: adjs w lg r
      end
  end.
Lemma adjs_length w lg l : length (adjs w lg l) = length l.
Proof. induction l as [|x l IH]; [reflexivity|]. cbn [adjs length]. destruct l as [|y l]; [reflexivity|]. cbn [length] in *. now rewrite IH. Qed.
Lemma adjs_wf w lg l : Forall (wf w) l -> Forall (wf w) (adjs w lg l).
Proof.
  induction 1 as [|x l Hx Hl IH]; [constructor|]. cbn [adjs]. destruct l as [|y l].
  - constructor; [|constructor]. unfold wf in *. eapply N.le_lt_trans; [|exact Hx].
    apply N.div_le_upper_bound; [apply pow2_nz|]. pose proof (pow2_pos lg). nia.
  - constructor; [apply wf_wadd|exact IH].
Qed.
Lemma adjs_val w lg l : lg <= w -> Forall (wf w) l -> lv w (adjs w lg l) = lv w l / 2 ^ lg.
Proof.
  intros Hlg. induction 1 as [|x l Hx Hl IH]; [cbn; symmetry; apply N.div_0_l, pow2_nz|].
  cbn [adjs]. destruct l as [|y l]; [cbn [lv]; rewrite !N.mul_0_r, !N.add_0_r; reflexivity|].
  cbn [lv]. cbn [lv] in IH. rewrite IH. inversion Hl as [|? ? Hy Hl']; subst.
  set (v := y + 2 ^ w * lv w l).
  assert (Ey : y mod 2 ^ lg = v mod 2 ^ lg).
  { unfold v. replace (2 ^ w) with (2 ^ (w - lg) * 2 ^ lg) by (rewrite <- N.pow_add_r; f_equal; lia).
    replace (y + 2 ^ (w - lg) * 2 ^ lg * lv w l) with (y + 2 ^ (w - lg) * lv w l * 2 ^ lg) by lia.
    now rewrite N.mod_add by apply pow2_nz. }
  rewrite Ey. clearbody v. clear Ey IH Hl Hl' Hy.
  assert (Ew : 2 ^ w = 2 ^ lg * 2 ^ (w - lg)) by (rewrite <- N.pow_add_r; f_equal; lia).
  unfold wf in Hx.
  assert (X1 : x / 2 ^ lg < 2 ^ (w - lg)) by (apply N.div_lt_upper_bound; [apply pow2_nz|rewrite <- Ew; exact Hx]).
  assert (V1 : v mod 2 ^ lg < 2 ^ lg) by (apply N.mod_lt, pow2_nz).
  unfold wadd, wshl. rewrite N.shiftl_mul_pow2.
  assert (S1 : v mod 2 ^ lg * 2 ^ (w - lg) < 2 ^ w) by (rewrite Ew; apply N.mul_lt_mono_pos_r; [apply pow2_pos|exact V1]).
  rewrite (N.mod_small _ _ S1).
  assert (S2 : x / 2 ^ lg + v mod 2 ^ lg * 2 ^ (w - lg) < 2 ^ w).
  { rewrite Ew. revert X1 V1. generalize (x / 2 ^ lg) (v mod 2 ^ lg) (2 ^ lg) (2 ^ (w - lg)). clear. intros; nia. }
  rewrite (N.mod_small _ _ S2). rewrite Ew.
  replace (x + 2 ^ lg * 2 ^ (w - lg) * v) with (x + 2 ^ (w - lg) * v * 2 ^ lg) by lia.
  rewrite N.div_add by apply pow2_nz. rewrite <- N.add_assoc. f_equal.
  rewrite (N.div_mod v (2 ^ lg)) at 3 by apply pow2_nz. clear. lia.
Qed.
Lemma lv_app w l m : lv w (l ++ m) = lv w l + 2 ^ (w * N.of_nat (length l)) * lv w m.
Proof.
  induction l as [|x l IH]; cbn [lv app length].
  - change (N.of_nat 0) with 0. rewrite N.mul_0_r. cbn [N.pow]. lia.
  - rewrite IH. replace (w * N.of_nat (S (length l))) with (w + w * N.of_nat (length l)) by lia. rewrite N.pow_add_r.
    clear. lia.
Qed.
Lemma to_words_firstn w k j : forall v, (j <= k)%nat -> firstn j (to_words w k v) = to_words w j v.
Proof.
  induction k as [|k IH] in j |- *; intros v Hj; destruct j as [|j]; try lia; try reflexivity. cbn [to_words firstn]. f_equal. apply IH. lia.
Qed.
