(* The counter based generators Philox and ThreeFry: counter, buffer, advance.
   The block function (Philox.v, ThreeFry.v) is a parameter here.

   Model of src/philox/philox.h:411-428 (_philoxNxW_next_tpl),
   src/philox/philox.c:5-33 (_philoxNxW_advance_tpl), and of the textually
   identical templates in src/threefry/threefry.h and threefry.c; and of
   advance/jump in philox.pyx:415-568 and threefry.pyx. *)
From Verif Require Import Word Arr Common MultiWord.
From Coq Require Import ZifyBool ZifyNat ZifyN.
Open Scope N_scope.

(* philox_all_t / threefry_all_t. ctr, key: the arrays of the active union
   member. buffer: the four slots, seen through the active width. *)
Record cst := Cst { c_ctr : list N; c_key : list N; c_pos : Z; c_buf : list N; c_has : bool; c_ui : N }.

(* C int arithmetic result stored in an int: in range it is the value; outside,
   the implementation-defined conversion from unsigned wraps (gcc) *)
Definition wrap_cint (z : Z) : Z := ((z + 2 ^ 31) mod 2 ^ 32 - 2 ^ 31)%Z.
Lemma wrap_cint_id z : (- 2 ^ 31 <= z < 2 ^ 31)%Z -> wrap_cint z = z.
Proof. intros H. unfold wrap_cint. rewrite Z.mod_small by lia. lia. Qed.

Section Ctr.
  Variables (W lg : N) (block : list N -> list N -> list N).
  Notation n := (2 ^ lg).
  Notation nn := (N.to_nat (2 ^ lg)).

  (* philox.h:411-428. None: buffer read out of bounds (negative buffer_pos). *)
  Definition cnext (s : cst) : option (cst * N) :=
    if (c_pos s <? Z.of_N n)%Z then
      match rd (c_buf s) (c_pos s) with
      | Some v => Some (Cst (c_ctr s) (c_key s) (c_pos s + 1) (c_buf s) (c_has s) (c_ui s), v)
      | None => None
      end
    else
      let ctr := incr W (c_ctr s) in
      let ct := block (c_key s) ctr in
      let buf := firstn 1 (c_buf s) ++ firstn (nn - 1) (tl ct) ++ skipn nn (c_buf s) in
      Some (Cst ctr (c_key s) 1 buf (c_has s) (c_ui s), hd 0 ct).

  (* philox.c:5-33; step has N+1 words. The last one, step[N], is never read. *)
  Definition cadvance (s : cst) (step : list N) (use_carry : bool) : cst :=
    let rem := nth 0 step 0 mod n in
    let next_pos := wrap_cint (c_pos s + Z.of_N rem) in
    let carry := (((c_pos s =? Z.of_N n)%Z && (rem =? 0)) || ((Z.of_N n <=? next_pos)%Z && (0 <? rem))) && use_carry in
    let ctr := addloop W (c_ctr s) (adjs W lg (firstn nn step)) carry in
    let ct := block (c_key s) ctr in
    Cst ctr (c_key s) (Z.rem next_pos (Z.of_N n)) (firstn nn ct ++ skipn nn (c_buf s)) (c_has s) (c_ui s).

  (* philox.pyx:223-228 _reset_state_variables: buffer_pos = PHILOX_BUFFER_SIZE = 4 *)
  Definition creset (s : cst) : cst := Cst (c_ctr s) (c_key s) 4 [0; 0; 0; 0] false 0.

  (* philox.pyx:484-568 advance(delta, counter) with counter not None *)
  Definition pyadvance (delta : Z) (counter : bool) (s : cst) : cst :=
    if (delta =? 0)%Z then s
    else
      let delta := if counter then (delta * Z.of_N n)%Z else delta in
      let delta := wrap_int delta (n * W + n / 2) in
      let s1 := cadvance s (to_words W (S nn) (Z.to_N delta)) (negb counter) in
      let s2 := Cst (c_ctr s1) (c_key s1) (c_pos s1) (c_buf s1) false 0 in
      if counter then creset s2 else s2.

  (* philox.pyx:415-427 jump_inplace(iter) *)
  Definition pyjump (iter : Z) (s : cst) : cst := pyadvance (iter * 2 ^ Z.of_N (W * n / 2)) true s.

  (* ---- specification ---- *)
  (* value number k of the whole output cycle for a key: word k mod n of the
     block at counter k / n (a counter of n words of W bits) *)
  Definition cstream (key : list N) (k : N) : N := nth (N.to_nat (k mod n)) (block key (to_words W nn (k / n))) 0.
  (* the position of a generator in the cycle: number of the next output *)
  Definition cpos (s : cst) : N := n * lv W (c_ctr s) + N.min (Z.to_N (c_pos s)) n.
  Definition cycle : N := n * 2 ^ (W * n).

  (* states reached by seeding, drawing and advancing: the words of the buffer
     still to be handed out belong to the block at the current counter *)
  Definition cinv (s : cst) : Prop :=
    Forall (wf W) (c_ctr s) /\ length (c_ctr s) = nn /\ length (c_buf s) = 4%nat /\ (0 <= c_pos s <= 4)%Z
    /\ forall i, (Z.to_nat (c_pos s) <= i < nn)%nat -> nth i (c_buf s) 0 = nth i (block (c_key s) (c_ctr s)) 0.

  Hypothesis Hlg : 1 <= lg <= 2.
  Hypothesis HW : 8 <= W.
  Hypothesis block_len : forall k c, length c = nn -> length (block k c) = nn.

  Lemma n_cases : (lg = 1 /\ n = 2) \/ (lg = 2 /\ n = 4).
  Proof. assert (lg = 1 \/ lg = 2) as [->| ->] by lia; cbn; auto. Qed.
  Lemma n_bounds : 2 <= n <= 4.
  Proof. destruct n_cases as [[_ ->]|[_ ->]]; lia. Qed.
  Lemma cycle_nz : cycle <> 0.
  Proof. unfold cycle. pose proof n_bounds. pose proof (pow2_pos (W * n)). nia. Qed.

  Lemma cstream_mod key k : cstream key (k mod cycle) = cstream key k.
  Proof.
    unfold cstream, cycle. pose proof n_bounds as B. rewrite N.mod_mul_r by (try apply pow2_nz; lia).
    replace ((k mod n + n * ((k / n) mod 2 ^ (W * n))) mod n) with (k mod n).
    2:{ rewrite (N.mul_comm n), N.mod_add by lia. symmetry. apply N.mod_mod. lia. }
    replace ((k mod n + n * ((k / n) mod 2 ^ (W * n))) / n) with ((k / n) mod 2 ^ (W * n)).
    2:{ rewrite (N.mul_comm n), N.div_add by lia. rewrite (N.div_small (k mod n)) by (apply N.mod_lt; lia). lia. }
    f_equal. f_equal. replace (W * n) with (W * N.of_nat nn) by lia. apply to_words_mod.
  Qed.
  Lemma cpos_lt s : cinv s -> lv W (c_ctr s) < 2 ^ (W * n).
  Proof.
    intros (Hw & Hl & _). pose proof (lv_lt W _ Hw) as L. rewrite Hl in L. now replace (N.of_nat nn) with n in L by lia.
  Qed.

  Lemma nth_skip (l m : list N) i : (length l <= i)%nat -> nth i (l ++ m) 0 = nth (i - length l) m 0.
  Proof. apply app_nth2. Qed.

  Theorem cnext_spec s : cinv s -> exists s', cnext s = Some (s', cstream (c_key s) (cpos s))
    /\ cinv s' /\ c_key s' = c_key s /\ cpos s' mod cycle = (cpos s + 1) mod cycle /\ c_has s' = c_has s /\ c_ui s' = c_ui s.
  Proof.
    intros Hi. pose proof (cpos_lt s Hi) as Hlt. destruct Hi as (Hw & Hl & Hb & Hp & Hv). pose proof n_bounds as B.
    unfold cnext. destruct (Z.ltb_spec (c_pos s) (Z.of_N n)) as [L|L].
    - rewrite (rd_nth _ _ 0) by lia. eexists. split; [|split; [|split; [|split]]].
      + f_equal. f_equal. rewrite Hv by lia. unfold cstream, cpos.
        replace (N.min (Z.to_N (c_pos s)) n) with (Z.to_N (c_pos s)) by lia.
        assert (P : Z.to_N (c_pos s) < n) by lia.
        rewrite (N.add_comm (n * _)), (N.mul_comm n), N.mod_add, N.div_add by lia.
        rewrite N.mod_small, N.div_small, N.add_0_l by exact P.
        rewrite to_words_lv by assumption. f_equal. lia.
      + unfold cinv. cbn [c_ctr c_key c_pos c_buf]. repeat split; try assumption; try lia.
        intros i Hi. apply Hv. lia.
      + reflexivity.
      + f_equal. unfold cpos. cbn [c_ctr c_pos]. lia.
      + split; reflexivity.
    - set (ctr := incr W (c_ctr s)).
      assert (Cl : length ctr = nn) by (unfold ctr; now rewrite incr_length).
      assert (Cw : Forall (wf W) ctr) by (now apply incr_wf).
      assert (Cv : lv W ctr = (lv W (c_ctr s) + 1) mod 2 ^ (W * n)).
      { unfold ctr. rewrite incr_val by (try assumption; lia). rewrite Hl. do 3 f_equal. lia. }
      pose proof (block_len (c_key s) ctr Cl) as Bl.
      set (ct := block (c_key s) ctr) in *.
      assert (Pm : cpos s = (lv W (c_ctr s) + 1) * n) by (unfold cpos; lia).
      eexists. split; [|split; [|split; [|split]]].
      + f_equal. f_equal. unfold cstream. rewrite Pm, N.mod_mul, N.div_mul by lia.
        change (N.to_nat 0) with 0%nat.
        rewrite <- to_words_mod. replace (W * N.of_nat nn) with (W * n) by lia. rewrite <- Cv.
        rewrite to_words_lv by assumption. fold ct. destruct ct; reflexivity.
      + unfold cinv. cbn [c_ctr c_key c_pos c_buf]. fold ct.
        assert (T : length (tl ct) = (nn - 1)%nat) by (destruct ct; cbn in *; lia).
        assert (F1 : length (firstn 1 (c_buf s)) = 1%nat) by (rewrite firstn_length; lia).
        repeat split; try assumption; try lia.
        * rewrite !app_length, F1, skipn_length, firstn_length, T, Hb. lia.
        * intros i Hi. change (Z.to_nat 1) with 1%nat in Hi. rewrite nth_skip, F1 by lia.
          rewrite firstn_all2 by lia. rewrite app_nth1 by lia. destruct ct as [|x ct]; [cbn in *; lia|].
          destruct i as [|i]; [lia|]. cbn. now rewrite Nat.sub_0_r.
      + reflexivity.
      + unfold cpos at 1. cbn [c_ctr c_pos]. rewrite Cv. replace (N.min (Z.to_N 1) n) with 1 by lia.
        rewrite Pm.
        unfold cycle. rewrite <- N.mul_mod_distr_l by (try apply pow2_nz; lia).
        rewrite (N.mul_comm (lv W (c_ctr s) + 1) n). rewrite mod_add_l; [reflexivity|]. pose proof (pow2_pos (W * n)). nia.
      + split; reflexivity.
  Qed.

  (* d draws: the list of values, None if any of them is undefined *)
  Fixpoint cdraws (d : nat) (s : cst) : option (cst * list N) :=
    match d with
    | O => Some (s, [])
    | S d => match cnext s with
             | None => None
             | Some (s1, v) => match cdraws d s1 with
                               | None => None
                               | Some (s2, vs) => Some (s2, v :: vs)
                               end
             end
    end.
  Lemma cstream_eq key a b : a mod cycle = b mod cycle -> cstream key a = cstream key b.
  Proof. intros E. now rewrite <- (cstream_mod key a), E, cstream_mod. Qed.
  Lemma add_mod_eq a b c : a mod cycle = b mod cycle -> (a + c) mod cycle = (b + c) mod cycle.
  Proof. intros E. rewrite <- (mod_add_l a), E, mod_add_l by apply cycle_nz. reflexivity. Qed.

  Theorem cdraws_spec d : forall s, cinv s -> exists s',
    cdraws d s = Some (s', map (fun i => cstream (c_key s) (cpos s + N.of_nat i)) (seq 0 d))
    /\ cinv s' /\ c_key s' = c_key s /\ cpos s' mod cycle = (cpos s + N.of_nat d) mod cycle /\ c_has s' = c_has s /\ c_ui s' = c_ui s.
  Proof.
    induction d as [|d IH]; intros s Hi.
    - exists s. change (N.of_nat 0) with 0. rewrite N.add_0_r. auto 10.
    - destruct (cnext_spec s Hi) as (s1 & E1 & I1 & K1 & P1 & H1 & U1).
      destruct (IH s1 I1) as (s2 & E2 & I2 & K2 & P2 & H2 & U2). exists s2.
      cbn [cdraws]. rewrite E1, E2. split; [|split; [|split; [|split; [|split]]]]; try congruence; auto.
      + f_equal. f_equal. cbn [seq map]. rewrite N.add_0_r. f_equal.
        rewrite <- seq_shift, map_map. apply map_ext. intros i. rewrite K1. apply cstream_eq.
        rewrite (add_mod_eq _ _ _ P1). f_equal. lia.
      + rewrite P2, (add_mod_eq _ _ _ P1). f_equal. lia.
  Qed.

  (* two states at the same position with the same key are indistinguishable *)
  Theorem same_pos_same_stream s t d : cinv s -> cinv t -> c_key s = c_key t -> cpos s mod cycle = cpos t mod cycle ->
    exists s' t' vs, cdraws d s = Some (s', vs) /\ cdraws d t = Some (t', vs).
  Proof.
    intros Hs Ht K P. destruct (cdraws_spec d s Hs) as (s' & E & _). destruct (cdraws_spec d t Ht) as (t' & F & _).
    exists s', t'. eexists. split; [exact E|]. rewrite F. f_equal. f_equal. apply map_ext. intros i. rewrite K.
    apply cstream_eq. symmetry. now apply add_mod_eq.
  Qed.

  (* ---- advance ---- *)
  Definition astep (d : N) := to_words W (S nn) d.
  Lemma astep_firstn d : firstn nn (astep d) = to_words W nn d.
  Proof. apply to_words_firstn. lia. Qed.
  Lemma astep_rem d : nth 0 (astep d) 0 mod n = d mod n.
  Proof.
    unfold astep. cbn [to_words nth]. replace W with (lg + (W - lg)) by lia. rewrite N.pow_add_r.
    rewrite N.mod_mul_r by apply pow2_nz. rewrite (N.mul_comm n), N.mod_add by apply pow2_nz. apply N.mod_mod, pow2_nz.
  Qed.

  Lemma cadvance_ctr s d uc (carry : bool) : cinv s ->
    (((c_pos s =? Z.of_N n)%Z && (d mod n =? 0)) || ((Z.of_N n <=? c_pos s + Z.of_N (d mod n))%Z && (0 <? d mod n))) && uc = carry ->
    lv W (c_ctr (cadvance s (astep d) uc)) = (lv W (c_ctr s) + (d mod 2 ^ (W * n)) / n + N.b2n carry) mod 2 ^ (W * n)
    /\ c_pos (cadvance s (astep d) uc) = Z.of_N ((Z.to_N (c_pos s) + d mod n) mod n)
    /\ cinv (cadvance s (astep d) uc).
  Proof.
    intros (Hw & Hl & Hb & Hp & Hv) Ec. pose proof n_bounds as B. unfold cadvance.
    rewrite astep_rem, astep_firstn.
    assert (R : d mod n < n) by (apply N.mod_lt; lia).
    rewrite wrap_cint_id by lia. rewrite Ec. cbn [c_ctr c_pos].
    assert (A1 : length (adjs W lg (to_words W nn d)) = length (c_ctr s)) by now rewrite adjs_length, to_words_length.
    assert (A2 : Forall (wf W) (adjs W lg (to_words W nn d))) by (apply adjs_wf, to_words_wf).
    set (ctr := addloop W (c_ctr s) _ carry).
    assert (Cl : length ctr = nn) by (unfold ctr; now rewrite addloop_length).
    assert (Ez : Z.rem (c_pos s + Z.of_N (d mod n)) (Z.of_N n) = Z.of_N ((Z.to_N (c_pos s) + d mod n) mod n)).
    { rewrite Z.rem_mod_nonneg by lia. rewrite (N2Z.inj_mod (_ + _)), N2Z.inj_add, Z2N.id by lia. reflexivity. }
    split; [|split].
    - unfold ctr. rewrite addloop_val by (try assumption; lia). rewrite Hl.
      rewrite adjs_val; [|clear - Hlg HW; lia|apply to_words_wf]. rewrite to_words_val.
      rewrite N2Nat.id. reflexivity.
    - exact Ez.
    - unfold cinv. cbn [c_ctr c_key c_pos c_buf]. rewrite Ez.
      pose proof (block_len (c_key s) ctr Cl) as Bl.
      assert (M : (Z.to_N (c_pos s) + d mod n) mod n < n) by (apply N.mod_lt; lia).
      clear Ez A1 A2 R Ec. set (m := (_ + _) mod n) in *. clearbody m.
      repeat split; try assumption; try lia.
      + now apply addloop_wf.
      + rewrite app_length, firstn_length, skipn_length, Bl, Hb. lia.
      + intros i Hi. rewrite firstn_all2 by lia. rewrite app_nth1 by lia. reflexivity.
  Qed.

  Lemma big_mod d : (d mod 2 ^ (W * n)) mod n = d mod n.
  Proof.
    assert (L : lg <= W * n) by (pose proof n_bounds; clear - Hlg HW H; nia).
    replace (W * n) with (lg + (W * n - lg)) by (clear - L; lia). rewrite N.pow_add_r.
    rewrite N.mod_mul_r by apply pow2_nz. rewrite (N.mul_comm n), N.mod_add by apply pow2_nz. apply N.mod_mod, pow2_nz.
  Qed.
  Lemma mod_ge_one m x : m <= x -> x < m + m -> x mod m = x - m.
  Proof.
    intros A B. replace x with (x - m + 1 * m) at 1 by (clear - A; lia).
    rewrite N.mod_add by (clear - A B; lia). apply N.mod_small. clear - A B; lia.
  Qed.
  (* the carry computed from buffer_pos and the remainder is the right one
     when buffer_pos <= N *)
  Lemma carry_ok (p : Z) r m : (0 <= p <= Z.of_N m)%Z -> r < m ->
    Z.to_N p + r = m * N.b2n (((p =? Z.of_N m)%Z && (r =? 0)) || ((Z.of_N m <=? p + Z.of_N r)%Z && (0 <? r)))
                   + (Z.to_N p + r) mod m.
  Proof.
    intros Hp Hr. destruct (N.lt_ge_cases (Z.to_N p + r) m) as [L|L].
    - rewrite N.mod_small by exact L.
      replace ((p =? Z.of_N m)%Z && (r =? 0)) with false by lia.
      replace ((Z.of_N m <=? p + Z.of_N r)%Z) with false by lia. cbn [andb orb N.b2n]. lia.
    - rewrite mod_ge_one by lia. replace (_ || _) with true; [cbn [N.b2n]; lia|].
      symmetry. destruct (N.eqb_spec r 0) as [Z|Z].
      + replace (p =? Z.of_N m)%Z with true by lia. reflexivity.
      + replace (Z.of_N m <=? p + Z.of_N r)%Z with true by lia.
        replace (0 <? r) with true by lia. apply orb_true_r.
  Qed.

  (* counter=False. From a state that has not got buffer_pos > N, a wrapped
     step d moves the position by d modulo 2^(N*W), instead of modulo the
     length N*2^(N*W) of the cycle. *)
  Theorem cadvance_pos s d : cinv s -> (c_pos s <= Z.of_N n)%Z ->
    cpos (cadvance s (astep d) true) mod cycle = (cpos s + d mod 2 ^ (W * n)) mod cycle.
  Proof.
    intros Hi Hp. destruct (cadvance_ctr s d true _ Hi eq_refl) as (Ev & Ep & _).
    destruct Hi as (Hw & Hl & Hb & Hp0 & Hv). pose proof n_bounds as B. rewrite andb_true_r in Ev.
    assert (Nz : n <> 0) by (clear - B; lia).
    assert (M : d mod n < n) by (now apply N.mod_lt).
    pose proof (carry_ok (c_pos s) (d mod n) n ltac:(clear - Hp Hp0; lia) M) as C.
    set (carry := N.b2n (_ || _)) in *. clearbody carry.
    unfold cpos. rewrite Ev, Ep, N2Z.id.
    assert (M2 : (Z.to_N (c_pos s) + d mod n) mod n < n) by (now apply N.mod_lt).
    rewrite (N.min_l _ n) by (apply N.lt_le_incl; exact M2).
    rewrite (N.min_l (Z.to_N (c_pos s))) by (clear - Hp Hp0; lia).
    unfold cycle. rewrite <- N.mul_mod_distr_l by (try apply pow2_nz; exact Nz).
    rewrite mod_add_l by (pose proof (pow2_pos (W * n)) as Q; clear - Q B; nia). f_equal.
    rewrite <- (big_mod d) in *. set (D := d mod 2 ^ (W * n)) in *.
    clearbody D. pose proof (N.div_mod D n Nz) as DM.
    rewrite !N.mul_add_distr_l. revert DM C. generalize (Z.to_N (c_pos s)) as p. intros p.
    generalize ((p + D mod n) mod n) as r. intros r. generalize (n * (D / n)) (D mod n) (n * lv W (c_ctr s)) (n * carry). clear. intros; lia.
  Qed.
  Lemma cadvance_inv s d uc : cinv s -> cinv (cadvance s (astep d) uc).
  Proof. intros H. now destruct (cadvance_ctr s d uc _ H eq_refl) as (_ & _ & I). Qed.

  (* ---- Python level ---- *)
  Lemma pyadv_step z : Z.to_N (wrap_int z (n * W + n / 2)) = Z.to_N (z mod Z.of_N cycle).
  Proof.
    rewrite wrap_int_mod. f_equal. f_equal. unfold cycle. rewrite N2Z.inj_mul, !N2Z.inj_pow, <- Z.pow_add_r by lia.
    f_equal. destruct n_cases as [[E1 E2]|[E1 E2]]; rewrite E2, E1; [change (2 / 2) with 1|change (4 / 2) with 2]; clear; lia.
  Qed.
  Lemma cinv_clear s : cinv s -> cinv (Cst (c_ctr s) (c_key s) (c_pos s) (c_buf s) false 0).
  Proof. exact (fun H => H). Qed.
  Lemma creset_inv s : cinv s -> cinv (creset s).
  Proof.
    intros (Hw & Hl & Hb & Hp & Hv). pose proof n_bounds. unfold creset, cinv. cbn [c_ctr c_key c_pos c_buf].
    repeat split; try assumption; try lia.
  Qed.
  Lemma cpos_creset s : cpos (creset s) = n * (lv W (c_ctr s) + 1).
  Proof.
    unfold cpos, creset. cbn [c_ctr c_pos]. pose proof n_bounds as B. rewrite (N.min_r _ n) by (clear - B; lia). clear. nia.
  Qed.
  Theorem pyadvance_inv delta counter s : cinv s -> cinv (pyadvance delta counter s).
  Proof.
    intros Hi. unfold pyadvance. destruct (delta =? 0)%Z; [exact Hi|].
    destruct counter.
    - apply creset_inv, cinv_clear, (cadvance_inv s), Hi.
    - apply cinv_clear, (cadvance_inv s), Hi.
  Qed.
  Lemma pyadvance_key delta counter s : c_key (pyadvance delta counter s) = c_key s.
  Proof. unfold pyadvance. destruct (delta =? 0)%Z, counter; reflexivity. Qed.

  (* counter=False: exactly where the position ends up *)
  Theorem pyadvance_pos delta s : cinv s -> (c_pos s <= Z.of_N n)%Z ->
    cpos (pyadvance delta false s) mod cycle
    = (cpos s + Z.to_N (delta mod Z.of_N cycle) mod 2 ^ (W * n)) mod cycle.
  Proof.
    intros Hi Hp. unfold pyadvance. destruct (Z.eqb_spec delta 0) as [->|Hd].
    - rewrite Z.mod_0_l by (pose proof cycle_nz; lia). rewrite N.mod_0_l by apply pow2_nz. now rewrite N.add_0_r.
    - rewrite pyadv_step. exact (cadvance_pos s _ Hi Hp).
  Qed.
  (* correct for 0 <= delta < 2^(N*W) *)
  Theorem pyadvance_ok delta s : cinv s -> (c_pos s <= Z.of_N n)%Z -> (0 <= delta < 2 ^ Z.of_N (W * n))%Z ->
    cpos (pyadvance delta false s) mod cycle = (cpos s + Z.to_N delta) mod cycle.
  Proof.
    intros Hi Hp Hd. rewrite pyadvance_pos by assumption. f_equal. f_equal.
    assert (C : (2 ^ Z.of_N (W * n) <= Z.of_N cycle)%Z).
    { unfold cycle. rewrite (N2Z.inj_mul n (2 ^ (W * n))), (N2Z.inj_pow 2 (W * n)). pose proof n_bounds as B. pose proof (Zpow2_pos (W * n)) as Q.
      change (Z.of_N 2) with 2%Z. revert B Q. generalize (2 ^ Z.of_N (W * n))%Z n. clear. intros; nia. }
    rewrite Z.mod_small by lia. apply N.mod_small.
    apply N2Z.inj_lt. rewrite Z2N.id by lia. rewrite N2Z.inj_pow. apply Hd.
  Qed.
  (* and only for those, modulo the cycle *)
  Theorem pyadvance_wrong delta s : cinv s -> (c_pos s <= Z.of_N n)%Z -> (2 ^ Z.of_N (W * n) <= delta mod Z.of_N cycle)%Z ->
    Z.of_N (cpos (pyadvance delta false s) mod cycle) <> ((Z.of_N (cpos s) + delta) mod Z.of_N cycle)%Z.
  Proof.
    intros Hi Hp Hd. rewrite pyadvance_pos by assumption. rewrite N2Z.inj_mod, N2Z.inj_add. intros E.
    pose proof (Z.mod_pos_bound delta (Z.of_N cycle) ltac:(pose proof cycle_nz; lia)) as Bd.
    set (e := (delta mod Z.of_N cycle)%Z) in *.
    assert (E2 : ((Z.of_N (cpos s) + delta) mod Z.of_N cycle = (Z.of_N (cpos s) + e) mod Z.of_N cycle)%Z).
    { unfold e. rewrite Zplus_mod_idemp_r. reflexivity. }
    rewrite E2 in E. clearbody e. clear E2.
    assert (L : Z.to_N e mod 2 ^ (W * n) < 2 ^ (W * n)) by (apply N.mod_lt, pow2_nz).
    set (f := Z.to_N e mod 2 ^ (W * n)) in *. clearbody f.
    assert (Lz : (Z.of_N f < 2 ^ Z.of_N (W * n))%Z) by (change 2%Z with (Z.of_N 2); rewrite <- N2Z.inj_pow; lia).
    set (c := Z.of_N cycle) in *. clearbody c. set (q := Z.of_N (cpos s)) in *. clearbody q.
    set (b := (2 ^ Z.of_N (W * n))%Z) in *. clearbody b. clear L.
    pose proof (Z.div_mod (q + Z.of_N f) c ltac:(lia)) as D1. pose proof (Z.div_mod (q + e) c ltac:(lia)) as D2.
    rewrite E in D1. clear - D1 D2 Bd Hd Lz. 
    assert (K : (e - Z.of_N f = c * ((q + e) / c - (q + Z.of_N f) / c))%Z) by lia.
    assert (R : (0 < e - Z.of_N f < c)%Z) by lia. revert K R. generalize ((q + e) / c - (q + Z.of_N f) / c)%Z (e - Z.of_N f)%Z. clear.
    intros k x -> R. destruct (Z.le_gt_cases k 0); nia.
  Qed.
  (* a negative delta is always one of the wrong ones unless it is close to
     the whole cycle *)
  Theorem pyadvance_negative_wrong delta s : cinv s -> (c_pos s <= Z.of_N n)%Z -> (- 2 ^ Z.of_N (W * n) <= delta < 0)%Z ->
    Z.of_N (cpos (pyadvance delta false s) mod cycle) <> ((Z.of_N (cpos s) + delta) mod Z.of_N cycle)%Z.
  Proof.
    intros Hi Hp Hd. apply pyadvance_wrong; try assumption.
    assert (C : (2 * 2 ^ Z.of_N (W * n) <= Z.of_N cycle)%Z).
    { unfold cycle. rewrite (N2Z.inj_mul n (2 ^ (W * n))), (N2Z.inj_pow 2 (W * n)). pose proof n_bounds as B. pose proof (Zpow2_pos (W * n)) as Q.
      change (Z.of_N 2) with 2%Z. revert B Q. generalize (2 ^ Z.of_N (W * n))%Z n. clear. intros; nia. }
    replace (delta mod Z.of_N cycle)%Z with (delta + Z.of_N cycle)%Z; [lia|].
    rewrite <- (Z.mod_add delta 1) by lia. rewrite Z.mod_small; lia.
  Qed.

  (* counter=True: the counter moves by delta blocks, the rest of the current
     block is dropped; correct for delta below 2^(N*W)/N, modulo 2^(N*W) *)
  Theorem pyadvance_counter delta s : cinv s -> delta <> 0%Z ->
    lv W (c_ctr (pyadvance delta true s))
    = (lv W (c_ctr s) + Z.to_N (delta mod 2 ^ Z.of_N (W * n)) mod 2 ^ (W * n - lg)) mod 2 ^ (W * n)
    /\ cpos (pyadvance delta true s) = n * (lv W (c_ctr (pyadvance delta true s)) + 1).
  Proof.
    intros Hi Hd. unfold pyadvance. destruct (Z.eqb_spec delta 0) as [E|_]; [contradiction|]. rewrite pyadv_step.
    split; [|rewrite cpos_creset; reflexivity]. unfold creset. cbn [c_ctr].
    destruct (cadvance_ctr s (Z.to_N ((delta * Z.of_N n) mod Z.of_N cycle)) false false Hi) as (Ev & _ & _); [apply andb_false_r|].
    unfold astep in Ev. cbn [negb]. rewrite Ev. cbn [N.b2n]. rewrite N.add_0_r. f_equal. f_equal.
    pose proof n_bounds as B.
    assert (X : ((delta * Z.of_N n) mod Z.of_N cycle = Z.of_N n * (delta mod 2 ^ Z.of_N (W * n)))%Z).
    { unfold cycle. rewrite (N2Z.inj_mul n (2 ^ (W * n))), (N2Z.inj_pow 2 (W * n)). rewrite (Z.mul_comm delta), Z.mul_mod_distr_l; [reflexivity| |lia].
      change (Z.of_N 2) with 2%Z. pose proof (Zpow2_pos (W * n)). lia. }
    rewrite X. pose proof (Z.mod_pos_bound delta _ (Zpow2_pos (W * n))) as Bd.
    rewrite Z2N.inj_mul, N2Z.id by lia. set (x := Z.to_N (delta mod _)). clearbody x.
    assert (L : lg <= W * n) by (clear - Hlg HW B; nia).
    replace (2 ^ (W * n)) with (n * 2 ^ (W * n - lg)) by (rewrite <- N.pow_add_r; f_equal; clear - L; lia).
    assert (Nz : n <> 0) by (clear - B; lia).
    rewrite N.mul_mod_distr_l by (try apply pow2_nz; exact Nz). rewrite N.mul_comm. now apply N.div_mul.
  Qed.
  Theorem pyadvance_counter_ok delta s : cinv s -> (0 < delta < 2 ^ Z.of_N (W * n - lg))%Z ->
    lv W (c_ctr (pyadvance delta true s)) = (lv W (c_ctr s) + Z.to_N delta) mod 2 ^ (W * n)
    /\ cpos (pyadvance delta true s) = n * (lv W (c_ctr (pyadvance delta true s)) + 1).
  Proof.
    intros Hi Hd. destruct (pyadvance_counter delta s Hi) as [E1 E2]; [clear - Hd; lia|]. split; [|exact E2].
    rewrite E1. f_equal. f_equal.
    assert (L : (2 ^ Z.of_N (W * n - lg) <= 2 ^ Z.of_N (W * n))%Z) by (apply Z.pow_le_mono_r; [reflexivity|]; apply N2Z.inj_le, N.le_sub_l).
    rewrite Z.mod_small by (clear - L Hd; lia). apply N.mod_small. apply N2Z.inj_lt. rewrite Z2N.id by (clear - Hd; lia). rewrite N2Z.inj_pow. apply Hd.
  Qed.
  Theorem pyjump_spec k s : cinv s -> (0 < k < 2 ^ Z.of_N (W * n / 2 - lg))%Z ->
    lv W (c_ctr (pyjump k s)) = (lv W (c_ctr s) + Z.to_N k * 2 ^ (W * n / 2)) mod 2 ^ (W * n)
    /\ cpos (pyjump k s) = n * (lv W (c_ctr (pyjump k s)) + 1).
  Proof.
    intros Hi Hk. unfold pyjump.
    assert (A : lg <= W * n / 2 /\ W * n = W * n / 2 + W * n / 2).
    { pose proof n_cases as NC. clear - NC HW. destruct NC as [[E1 E2]|[E1 E2]]; rewrite E2, E1.
      - rewrite N.div_mul by lia. lia.
      - replace (W * 4) with (W * 2 * 2) by lia. rewrite N.div_mul by lia. lia. }
    destruct A as [A1 A2]. set (h := W * n / 2) in *.
    destruct (pyadvance_counter_ok (k * 2 ^ Z.of_N h) s Hi) as [E1 E2].
    - replace (W * n - lg) with (h - lg + h) by (clear - A1 A2; lia). rewrite N2Z.inj_add, Z.pow_add_r by lia.
      pose proof (Zpow2_pos h) as Q. revert Hk Q. generalize (2 ^ Z.of_N h)%Z (2 ^ Z.of_N (h - lg))%Z. clear. intros; nia.
    - split; [|exact E2]. rewrite E1. f_equal. f_equal. rewrite Z2N.inj_mul by (try apply Z.pow_nonneg; lia).
      f_equal. apply N2Z.inj. rewrite Z2N.id by (apply Z.pow_nonneg; lia). now rewrite N2Z.inj_pow.
  Qed.
End Ctr.
