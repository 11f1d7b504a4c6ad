(* Emulated 128-bit arithmetic (PCG_EMULATED_128BIT_MATH: 32-bit targets and
   compilers without __uint128_t) and its agreement with native arithmetic.
   A pcg128_t is a pair (high, low). *)
From Verif Require Import Word Lcg Pcg PcgFacts Buffer32.
From Coq Require Import ZifyBool ZifyNat ZifyN.
Open Scope N_scope.

Definition u128 := (N * N)%type.
(* src/pcg64/pcg64-common.h:56-65 *)
Definition e_add (a b : u128) : u128 :=
  let low := wadd 64 (snd a) (snd b) in
  let carry := if low <? snd b then 1 else 0 in
  (wadd 64 (wadd 64 (fst a) (fst b)) carry, low).
(* src/pcg64/pcg64-common.h:67-88 (portable branch) *)
Definition e_mult64 (x y : N) : u128 :=
  let z0 := wmul 64 x y in
  let x0 := N.land x 0xFFFFFFFF in
  let x1 := N.shiftr x 32 in
  let y0 := N.land y 0xFFFFFFFF in
  let y1 := N.shiftr y 32 in
  let w0 := wmul 64 x0 y0 in
  let t := wadd 64 (wmul 64 x1 y0) (N.shiftr w0 32) in
  let w1 := N.land t 0xFFFFFFFF in
  let w2 := N.shiftr t 32 in
  let w1 := wadd 64 w1 (wmul 64 x0 y1) in
  let z1 := wadd 64 (wadd 64 (wmul 64 x1 y1) w2) (N.shiftr w1 32) in
  (z1, z0).
(* src/pcg64/pcg64-common.h:90-102 *)
Definition e_mult (a b : u128) : u128 :=
  let h1 := wadd 64 (wmul 64 (fst a) (snd b)) (wmul 64 (snd a) (fst b)) in
  let '(rh, rl) := e_mult64 (snd a) (snd b) in
  (wadd 64 rh h1, rl).
(* src/pcg64/pcg64-v2.h:37-38, 57-58, lcg128mix.h:30 *)
Definition e_step (m inc s : u128) : u128 := e_add (e_mult s m) inc.
(* src/pcg64/pcg64-v2.h:65-68: the odd increment *)
Definition e_inc (seq : u128) : u128 :=
  (N.lor (wshl 64 (fst seq) 1) (N.shiftr (snd seq) 63), N.lor (wshl 64 (snd seq) 1) 1).
(* src/pcg64/pcg64-common.c:22-36; fuel bounds the number of iterations, and
   running out of it gives None *)
Fixpoint e_loop (fuel : nat) (delta am ap cm cp : u128) : option (u128 * u128) :=
  if (0 <? fst delta) || (0 <? snd delta) then
    match fuel with
    | O => None
    | S fuel =>
        let '(am, ap) := if N.land (snd delta) 1 =? 1
                         then (e_mult am cm, e_add (e_mult ap cm) cp) else (am, ap) in
        let cp := e_mult (e_add cm (0, 1)) cp in
        let cm := e_mult cm cm in
        let delta := (N.shiftr (fst delta) 1, N.lor (N.shiftr (snd delta) 1) (wshl 64 (fst delta) 63)) in
        e_loop fuel delta am ap cm cp
    end
  else Some (am, ap).
Definition e_advance (fuel : nat) (state delta mult plus : u128) : option u128 :=
  match e_loop fuel delta (0, 1) (0, 0) mult plus with
  | Some (am, ap) => Some (e_add (e_mult am state) ap)
  | None => None
  end.

(* ---- specification ---- *)
Definition val (a : u128) : N := fst a * 2 ^ 64 + snd a.
Definition ewf (a : u128) : Prop := wf 64 (fst a) /\ wf 64 (snd a).

Lemma val_wf a : ewf a -> wf 128 (val a).
Proof.
  intros [H1 H2]. unfold wf, val in *. change (2 ^ 128) with (2 ^ 64 * 2 ^ 64).
  generalize dependent (2 ^ 64). intros B H1 H2. nia.
Qed.
Lemma val_inj a b : ewf a -> ewf b -> val a = val b -> a = b.
Proof.
  destruct a as [a1 a2], b as [b1 b2]. intros [H1 H2] [H3 H4] H. unfold wf, val in *. cbn in *.
  assert (a1 = b1) by nia. subst. f_equal. lia.
Qed.
Lemma val_hi_lo a : ewf a -> hi64 (val a) = fst a /\ lo64 (val a) = snd a.
Proof.
  intros [H1 H2]. unfold hi64, lo64, val, trunc, wf in *.
  rewrite N.shiftr_div_pow2. split.
  - rewrite N.div_add_l by apply pow2_nz. rewrite N.div_small by exact H2. lia.
  - rewrite N.add_comm, N.mod_add by apply pow2_nz. now apply N.mod_small.
Qed.

Lemma ewf_add a b : ewf (e_add a b).
Proof. split; cbn; apply wf_wadd. Qed.
Lemma ewf_mult a b : ewf (e_mult a b).
Proof. unfold e_mult, e_mult64. split; cbn; [apply wf_wadd|apply wf_wmul]. Qed.

Lemma e_add_val a b : ewf a -> ewf b -> val (e_add a b) = wadd 128 (val a) (val b).
Proof.
  destruct a as [a1 a0], b as [b1 b0]. intros [H1 H2] [H3 H4]. cbn in *.
  unfold e_add, val, wadd, wf in *. cbn [fst snd].
  change (2 ^ 128) with (2 ^ 64 * 2 ^ 64). set (B := 2 ^ 64) in *.
  assert (HB : B <> 0) by apply pow2_nz. clearbody B.
  destruct (N.ltb_spec ((a0 + b0) mod B) b0) as [Hc|Hc].
  - assert (Hov : B <= a0 + b0).
    { destruct (N.le_gt_cases B (a0 + b0)) as [|Hlt]; [assumption|].
      rewrite N.mod_small in Hc by exact Hlt. lia. }
    assert (E : (a0 + b0) mod B = a0 + b0 - B).
    { symmetry. apply (N.mod_unique _ _ 1); lia. }
    rewrite E. rewrite N.add_mod_idemp_l by exact HB.
    replace (a1 * B + a0 + (b1 * B + b0)) with ((a1 + b1 + 1) * B + (a0 + b0 - B)) by nia.
    set (q := a1 + b1 + 1). set (r := a0 + b0 - B) in *.
    assert (Hr : r < B) by lia.
    apply (N.mod_unique _ _ (q / B)).
    + pose proof (N.mod_lt q B HB). nia.
    + pose proof (N.div_mod q B HB). nia.
  - assert (Hno : a0 + b0 < B).
    { destruct (N.le_gt_cases B (a0 + b0)) as [Hge|]; [|assumption]. exfalso.
      assert (E : (a0 + b0) mod B = a0 + b0 - B) by (symmetry; apply (N.mod_unique _ _ 1); lia).
      lia. }
    rewrite (N.mod_small (a0 + b0)) by exact Hno.
    rewrite N.add_0_r, N.mod_mod by exact HB.
    replace (a1 * B + a0 + (b1 * B + b0)) with ((a1 + b1) * B + (a0 + b0)) by nia.
    set (q := a1 + b1). apply (N.mod_unique _ _ (q / B)).
    + pose proof (N.mod_lt q B HB). nia.
    + pose proof (N.div_mod q B HB). nia.
Qed.

Lemma schoolbook B x1 x0 y1 y0 k r0 w2 m c d :
  x0 * y0 = B * k + r0 -> x1 * y0 + k = B * w2 + m -> m + x0 * y1 = B * c + d ->
  (B * x1 + x0) * (B * y1 + y0) = (x1 * y1 + w2 + c) * (B * B) + (d * B + r0).
Proof.
  intros E1 E2 E3.
  assert (F2 : B * (x1 * y0 + k) = B * (B * w2 + m)) by now rewrite E2.
  assert (F3 : B * (m + x0 * y1) = B * (B * c + d)) by now rewrite E3.
  replace ((B * x1 + x0) * (B * y1 + y0)) with (B * B * (x1 * y1) + B * (x1 * y0) + B * (x0 * y1) + x0 * y0) by ring.
  rewrite E1. clear E1 E2 E3. lia.
Qed.
Lemma two_digits B d r : d < B -> r < B -> d * B + r < B * B.
Proof. nia. Qed.
Lemma prod_lt B a b : a < B -> b < B -> a * b < B * B.
Proof. nia. Qed.
Lemma e_mult64_val x y : wf 64 x -> wf 64 y -> val (e_mult64 x y) = x * y /\ ewf (e_mult64 x y).
Proof.
  intros Hx Hy. split; [|unfold e_mult64; split; cbn; [apply wf_wadd|apply wf_wmul]].
  unfold e_mult64, val. cbn [fst snd].
  rewrite !N.shiftr_div_pow2. change 0xFFFFFFFF with (N.ones 32). rewrite !N.land_ones.
  unfold wf in *. set (B := 2 ^ 32) in *.
  assert (HB : B <> 0) by apply pow2_nz.
  assert (HBB : 2 ^ 64 = B * B) by reflexivity.
  pose proof (N.div_mod x B HB) as Ex. pose proof (N.mod_lt x B HB) as Lx.
  pose proof (N.div_mod y B HB) as Ey. pose proof (N.mod_lt y B HB) as Ly.
  assert (Hx1 : x / B < B) by (apply N.div_lt_upper_bound; [exact HB|lia]).
  assert (Hy1 : y / B < B) by (apply N.div_lt_upper_bound; [exact HB|lia]).
  set (x1 := x / B) in *. set (x0 := x mod B) in *. set (y1 := y / B) in *. set (y0 := y mod B) in *.
  assert (W0 : wmul 64 x0 y0 = x0 * y0) by (unfold wmul; rewrite HBB; apply N.mod_small; nia).
  rewrite W0. set (w0 := x0 * y0) in *.
  pose proof (N.div_mod w0 B HB) as Ew0. pose proof (N.mod_lt w0 B HB) as Lw0.
  assert (Hw0 : w0 / B < B) by (apply N.div_lt_upper_bound; [exact HB|nia]).
  set (k := w0 / B) in *.
  assert (T1 : wmul 64 x1 y0 = x1 * y0) by (unfold wmul; rewrite HBB; apply N.mod_small; nia).
  rewrite T1.
  assert (T2 : wadd 64 (x1 * y0) k = x1 * y0 + k) by (unfold wadd; rewrite HBB; apply N.mod_small; nia).
  rewrite T2. set (t := x1 * y0 + k) in *.
  pose proof (N.div_mod t B HB) as Et. pose proof (N.mod_lt t B HB) as Lt'.
  assert (T3 : wmul 64 x0 y1 = x0 * y1) by (unfold wmul; rewrite HBB; apply N.mod_small; nia).
  rewrite T3.
  assert (T4 : wadd 64 (t mod B) (x0 * y1) = t mod B + x0 * y1) by (unfold wadd; rewrite HBB; apply N.mod_small; nia).
  rewrite T4. set (w1 := t mod B + x0 * y1) in *.
  pose proof (N.div_mod w1 B HB) as Ew1. pose proof (N.mod_lt w1 B HB) as Lw1.
  set (w2 := t / B) in *.
  (* full product *)
  assert (E : x * y = (x1 * y1 + w2 + w1 / B) * (B * B) + ((w1 mod B) * B + w0 mod B)).
  { rewrite Ex, Ey at 1. apply (schoolbook B x1 x0 y1 y0 k (w0 mod B) w2 (t mod B)).
    - exact Ew0.
    - exact Et.
    - exact Ew1. }
  assert (Hlow : (w1 mod B) * B + w0 mod B < B * B) by now apply two_digits.
  assert (Hxy : x * y < (B * B) * (B * B)) by (apply prod_lt; [rewrite <- HBB; exact Hx|rewrite <- HBB; exact Hy]).
  assert (Hz1 : x1 * y1 + w2 + w1 / B < B * B).
  { rewrite E in Hxy. set (q := x1 * y1 + w2 + w1 / B) in *. clearbody q.
    set (BB := B * B) in *. set (lo := w1 mod B * B + w0 mod B) in *. clearbody BB lo.
    apply (N.mul_lt_mono_pos_r BB); lia. }
  assert (T5 : wmul 64 x1 y1 = x1 * y1) by (unfold wmul; rewrite HBB; apply N.mod_small, prod_lt; assumption).
  rewrite T5.
  assert (T6 : wadd 64 (x1 * y1) w2 = x1 * y1 + w2) by (unfold wadd; rewrite HBB; apply N.mod_small; lia).
  rewrite T6.
  assert (T7 : wadd 64 (x1 * y1 + w2) (w1 / B) = x1 * y1 + w2 + w1 / B) by (unfold wadd; rewrite HBB; apply N.mod_small; lia).
  rewrite T7.
  assert (Z0 : wmul 64 x y = w1 mod B * B + w0 mod B).
  { unfold wmul. rewrite HBB. rewrite E. rewrite N.add_comm, N.mod_add by nia. apply N.mod_small. exact Hlow. }
  rewrite Z0, HBB. symmetry. exact E.
Qed.

Lemma e_mult_val a b : ewf a -> ewf b -> val (e_mult a b) = wmul 128 (val a) (val b).
Proof.
  destruct a as [a1 a0], b as [b1 b0]. intros [H1 H2] [H3 H4]. cbn [fst snd] in *.
  unfold e_mult. cbn [fst snd].
  destruct (e_mult64_val a0 b0 H2 H4) as [Hm [Hh Hl]].
  destruct (e_mult64 a0 b0) as [rh rl]. unfold val in *. cbn [fst snd] in *.
  unfold wmul, wadd, wf in *. change (2 ^ 128) with (2 ^ 64 * 2 ^ 64). set (B := 2 ^ 64) in *.
  assert (HB : B <> 0) by apply pow2_nz. clearbody B.
  rewrite <- (N.add_mod (a1 * b0)) by exact HB. rewrite N.add_mod_idemp_r by exact HB.
  replace ((a1 * B + a0) * (b1 * B + b0)) with
    ((rh + (a1 * b0 + a0 * b1)) * B + rl + (a1 * b1) * (B * B)) by nia.
  rewrite N.mod_add by nia.
  set (q := rh + (a1 * b0 + a0 * b1)).
  apply (N.mod_unique _ _ (q / B)).
  - pose proof (N.mod_lt q B HB). nia.
  - pose proof (N.div_mod q B HB). nia.
Qed.

Lemma e_step_val m inc s : ewf m -> ewf inc -> ewf s ->
  val (e_step m inc s) = lcg_step 128 (val m) (val inc) (val s).
Proof.
  intros. unfold e_step. rewrite e_add_val, e_mult_val; auto using ewf_mult.
  unfold wadd, wmul, lcg_step. now rewrite N.add_mod_idemp_l by apply pow2_nz.
Qed.

(* the shift by one of the pair is the halving of the value *)
Lemma e_half d : ewf d ->
  let d' := (N.shiftr (fst d) 1, N.lor (N.shiftr (snd d) 1) (wshl 64 (fst d) 63)) in
  val d' = val d / 2 /\ ewf d'.
Proof.
  destruct d as [h l]. intros [Hh Hl]. cbn [fst snd] in *. cbn zeta. split.
  - unfold val. cbn [fst snd].
    assert (E : wshl 64 h 63 = (h mod 2) * 2 ^ 63).
    { unfold wshl. rewrite N.shiftl_mul_pow2. change (2 ^ 64) with (2 * 2 ^ 63).
      now rewrite N.mul_mod_distr_r by (try apply pow2_nz; discriminate). }
    rewrite E, N.lor_comm, <- (N.shiftl_mul_pow2 (h mod 2)), lor_shift.
    + rewrite !N.shiftr_div_pow2. change (2 ^ 1) with 2.
      pose proof (N.div_mod h 2 ltac:(discriminate)).
      pose proof (N.mod_lt h 2 ltac:(discriminate)).
      replace (h * 2 ^ 64 + l) with (h * 2 ^ 63 * 2 + l) by (change (2 ^ 64) with (2 ^ 63 * 2); ring).
      rewrite N.div_add_l by discriminate.
      change (2 ^ 64) with (2 ^ 63 * 2). set (A := 2 ^ 63). clearbody A. nia.
    + unfold wf in *. rewrite N.shiftr_div_pow2. apply N.div_lt_upper_bound; [discriminate|].
      exact Hl.
  - split; cbn; [now apply wf_shr|]. apply wf_lor; [now apply wf_shr|apply wf_wshl].
Qed.

Lemma e_loop_S fuel delta am ap cm cp :
  e_loop (S fuel) delta am ap cm cp =
  if (0 <? fst delta) || (0 <? snd delta) then
        let '(am, ap) := if N.land (snd delta) 1 =? 1
                         then (e_mult am cm, e_add (e_mult ap cm) cp) else (am, ap) in
        e_loop fuel (N.shiftr (fst delta) 1, N.lor (N.shiftr (snd delta) 1) (wshl 64 (fst delta) 63))
               am ap (e_mult cm cm) (e_mult (e_add cm (0, 1)) cp)
  else Some (am, ap).
Proof. reflexivity. Qed.

Lemma low_bit d : ewf d -> (N.land (snd d) 1 =? 1) = N.odd (val d).
Proof.
  destruct d as [h l]. intros [_ _]. unfold val. cbn [fst snd].
  change 1 with (N.ones 1). rewrite N.land_ones. change (2 ^ 1) with 2. change (N.ones 1) with 1.
  rewrite N.odd_add, N.odd_mul. change (N.odd (2 ^ 64)) with false. rewrite andb_false_r, xorb_false_l.
  rewrite <- N.bit0_mod, N.bit0_odd. destruct (N.odd l); reflexivity.
Qed.

Lemma nonzero_val d : ewf d -> ((0 <? fst d) || (0 <? snd d)) = negb (val d =? 0).
Proof.
  destruct d as [h l]. intros _. unfold val. cbn [fst snd].
  destruct (N.eqb_spec (h * 2 ^ 64 + l) 0) as [E|E]; cbn [negb].
  - apply orb_false_iff. split; apply N.ltb_ge; pose proof (pow2_pos 64); nia.
  - apply orb_true_iff. destruct (N.ltb_spec 0 h) as [|Hh]; [now left|right].
    apply N.ltb_lt. assert (h = 0) by lia. subst h. lia.
Qed.

(* invariant of the loop against the native one *)
Lemma e_loop_native fuel : forall delta am ap cm cp,
  ewf delta -> ewf am -> ewf ap -> ewf cm -> ewf cp ->
  val delta < 2 ^ N.of_nat fuel ->
  exists am' ap',
    e_loop fuel delta am ap cm cp = Some (am', ap') /\ ewf am' /\ ewf ap' /\
    (val am', val ap') =
      match val delta with
      | 0 => (val am, val ap)
      | Npos d => adv_loop 128 d (val am) (val ap) (val cm) (val cp)
      end.
Proof.
  induction fuel as [|fuel IH]; intros delta am ap cm cp Hd Ham Hap Hcm Hcp Hlt.
  - assert (E : val delta = 0) by (cbn in Hlt; lia).
    exists am, ap. rewrite E. cbn [e_loop]. rewrite nonzero_val by exact Hd. rewrite E. cbn. auto.
  - rewrite e_loop_S, nonzero_val, low_bit by exact Hd.
    destruct (val delta) as [|d] eqn:E.
    + cbn. exists am, ap. auto.
    + destruct (e_half delta Hd) as [Hh Hw]. rewrite E in Hh.
      assert (Hlt' : Npos d / 2 < 2 ^ N.of_nat fuel).
      { rewrite Nat2N.inj_succ, N.pow_succ_r' in Hlt. apply N.div_lt_upper_bound; [discriminate|exact Hlt]. }
      assert (Hone : ewf (0, 1)) by (split; cbn; reflexivity).
      assert (V1 : val (0, 1) = 1) by reflexivity.
      cbn [negb N.eqb].
      destruct (N.odd (Npos d)) eqn:Ho.
      * destruct (IH _ (e_mult am cm) (e_add (e_mult ap cm) cp) (e_mult cm cm) (e_mult (e_add cm (0, 1)) cp)
                    Hw (ewf_mult _ _) (ewf_add _ _) (ewf_mult _ _) (ewf_mult _ _)) as (am' & ap' & Hl & Ha & Hb & Hv).
        { rewrite Hh. exact Hlt'. }
        exists am', ap'. split; [exact Hl|]. split; [exact Ha|]. split; [exact Hb|]. rewrite Hv, Hh, <- N.div2_div.
        rewrite e_add_val, !e_mult_val, e_add_val, V1 by (auto using ewf_mult, ewf_add).
        destruct d; try discriminate; reflexivity.
      * destruct (IH _ am ap (e_mult cm cm) (e_mult (e_add cm (0, 1)) cp)
                    Hw Ham Hap (ewf_mult _ _) (ewf_mult _ _)) as (am' & ap' & Hl & Ha & Hb & Hv).
        { rewrite Hh. exact Hlt'. }
        exists am', ap'. split; [exact Hl|]. split; [exact Ha|]. split; [exact Hb|]. rewrite Hv, Hh, <- N.div2_div.
        rewrite !e_mult_val, e_add_val, V1 by (auto using ewf_mult, ewf_add).
        destruct d; try discriminate; reflexivity.
Qed.

Lemma e_advance_val state delta mult plus :
  ewf state -> ewf delta -> ewf mult -> ewf plus ->
  exists r, e_advance 128 state delta mult plus = Some r /\ ewf r /\
            val r = lcg_advance 128 (val state) (val delta) (val mult) (val plus).
Proof.
  intros Hs Hd Hm Hp. unfold e_advance, lcg_advance.
  assert (W1 : ewf (0, 1)) by (split; cbn; reflexivity).
  assert (W0 : ewf (0, 0)) by (split; cbn; reflexivity).
  destruct (e_loop_native 128 delta (0, 1) (0, 0) mult plus Hd W1 W0 Hm Hp (val_wf _ Hd))
    as (am & ap & Hl & Ha & Hb & Hv).
  rewrite Hl. eexists. split; [reflexivity|]. split; [apply ewf_add|].
  rewrite e_add_val, e_mult_val by (auto using ewf_mult).
  change (val (0, 1)) with 1 in Hv. change (val (0, 0)) with 0 in Hv.
  destruct (val delta) as [|d].
  - injection Hv as -> ->. reflexivity.
  - rewrite <- Hv. reflexivity.
Qed.

Lemma e_inc_val q : ewf q -> val (e_inc q) = N.lor (wshl 128 (val q) 1) 1 /\ ewf (e_inc q).
Proof.
  destruct q as [h l]. intros [Hh Hl]. cbn [fst snd] in *. unfold e_inc. cbn [fst snd].
  split.
  - unfold val. cbn [fst snd].
    assert (Hlow : wf 64 (N.lor (wshl 64 l 1) 1)) by (apply wf_lor; [apply wf_wshl|reflexivity]).
    rewrite <- (lor_shift 64) by exact Hlow.
    rewrite <- (lor_shift 64 h l) by exact Hl.
    apply N.bits_inj. intros i. rewrite !N.lor_spec, (wshl_spec 128), !N.lor_spec.
    destruct (N.ltb_spec i 64) as [Hi|Hi].
    + rewrite N.shiftl_spec_low by exact Hi. rewrite wshl_spec.
      rewrite (proj2 (N.ltb_lt i 64)), (proj2 (N.ltb_lt i 128)) by lia. cbn [orb andb].
      destruct (N.leb_spec 1 i) as [H1|H1]; cbn [andb].
      * rewrite (N.shiftl_spec_low h 64) by lia. reflexivity.
      * reflexivity.
    + rewrite N.shiftl_spec_high' by exact Hi. rewrite N.lor_spec, wshl_spec, shr_spec.
      rewrite wshl_spec. rewrite (proj2 (N.ltb_ge i 64)) by exact Hi. cbn [andb].
      destruct (N.ltb_spec i 128) as [H2|H2]; cbn [andb].
      * rewrite (proj2 (N.ltb_lt (i - 64) 64)) by lia. rewrite (proj2 (N.leb_le 1 i)) by lia. cbn [andb orb].
        destruct (N.leb_spec 1 (i - 64)) as [H3|H3].
        -- rewrite (N.shiftl_spec_high' h 64 (i - 1)) by lia.
           rewrite wf_testbit in Hl.
           rewrite (Hl (i - 64 + 63)), (Hl (i - 1)) by lia.
           replace (i - 1 - 64) with (i - 64 - 1) by lia. cbn [andb]. now rewrite !orb_false_r.
        -- assert (i = 64) by lia. subst i. change (64 - 64) with 0. cbn [andb].
           rewrite (N.shiftl_spec_low h 64) by lia. reflexivity.
      * rewrite (proj2 (N.ltb_ge (i - 64) 64)) by lia. cbn [andb orb].
        rewrite wf_testbit in Hl. rewrite Hl by lia. reflexivity.
  - split; cbn [fst snd].
    + apply wf_lor; [apply wf_wshl|now apply wf_shr].
    + apply wf_lor; [apply wf_wshl|reflexivity].
Qed.

(* The emulated generator: src/pcg64/pcg64-v2.h with pairs *)
Definition e_of (x : N) : u128 := (hi64 x, lo64 x).
Lemma e_of_val x : wf 128 x -> val (e_of x) = x /\ ewf (e_of x).
Proof.
  intros H. unfold e_of, val, ewf, hi64, lo64. cbn [fst snd].
  rewrite N.shiftr_div_pow2. unfold trunc. split; [|split].
  - pose proof (N.div_mod x (2 ^ 64) (pow2_nz 64)). lia.
  - unfold wf. apply N.div_lt_upper_bound; [apply pow2_nz|exact H].
  - apply N.mod_lt, pow2_nz.
Qed.
Record e_pcg := EP { e_state : u128; e_incr : u128; e_var : variant }.
Definition e_pstep (s : e_pcg) : e_pcg :=
  EP (e_step (e_of (p64_mult (e_var s))) (e_incr s) (e_state s)) (e_incr s) (e_var s).
Definition e_next (s : e_pcg) : e_pcg * N :=
  let s' := e_pstep s in
  match e_var s with
  | XslRr => (s', out_xsl_rr (fst (e_state s')) (snd (e_state s')))
  | Dxsm128 => (s', out_dxsm PCG_CHEAP_MULT (fst (e_state s')) (snd (e_state s')))
  | CmDxsm => (s', out_dxsm PCG_CHEAP_MULT (fst (e_state s)) (snd (e_state s)))
  end.
Definition e_init (v : variant) (initstate initseq : u128) : e_pcg :=
  let inc := e_inc initseq in
  let s1 := e_pstep (EP (0, 0) inc v) in
  e_pstep (EP (e_add (e_state s1) initstate) inc v).

(* the native generator an emulated one stands for *)
Definition native (s : e_pcg) : pcg64c := P64 (val (e_state s)) (val (e_incr s)) (e_var s).
Definition e_ok (s : e_pcg) : Prop := ewf (e_state s) /\ ewf (e_incr s).

Lemma wf_p64_mult v : wf 128 (p64_mult v).
Proof. destruct v; reflexivity. Qed.
Lemma e_pstep_native s : e_ok s -> native (e_pstep s) = p64_step (native s) /\ e_ok (e_pstep s).
Proof.
  intros [Hs Hi]. destruct (e_of_val _ (wf_p64_mult (e_var s))) as [Hv Hw]. split.
  - unfold native, e_pstep, p64_step. cbn. rewrite e_step_val by assumption. now rewrite Hv.
  - split; cbn; [apply ewf_add|exact Hi].
Qed.
Lemma e_next_native s : e_ok s ->
  let '(s', v) := e_next s in
  let '(n', w) := p64_next (native s) in
  native s' = n' /\ v = w /\ e_ok s'.
Proof.
  intros Hok. destruct (e_pstep_native s Hok) as [Hn Hok'].
  destruct (val_hi_lo _ (proj1 Hok)) as [H1 H2].
  destruct (val_hi_lo _ (proj1 Hok')) as [H3 H4].
  unfold e_next, p64_next, on_halves. cbn [p_var native].
  destruct (e_var s); rewrite <- Hn; cbn [p_state native]; rewrite ?H1, ?H2, ?H3, ?H4; auto.
Qed.
Lemma e_init_native v a b : ewf a -> ewf b ->
  native (e_init v a b) = p64_initialize v (val a) (val b) /\ e_ok (e_init v a b).
Proof.
  intros Ha Hb. destruct (e_inc_val b Hb) as [Hi Hwi].
  assert (W0 : ewf (0, 0)) by (split; cbn; reflexivity).
  destruct (e_pstep_native (EP (0, 0) (e_inc b) v)) as [H1 H2]; [split; assumption|].
  unfold e_init. set (s1 := e_pstep (EP (0, 0) (e_inc b) v)) in *.
  destruct (e_pstep_native (EP (e_add (e_state s1) a) (e_inc b) v)) as [H3 H4].
  { split; [apply ewf_add|exact Hwi]. }
  split; [|exact H4]. rewrite H3. unfold p64_initialize. rewrite <- Hi.
  change (native (EP (0, 0) (e_inc b) v)) with (P64 0 (val (e_inc b)) v) in H1.
  rewrite <- H1. unfold native at 1. cbn [e_state e_incr e_var].
  rewrite e_add_val by (destruct H2; assumption). reflexivity.
Qed.
(* whole output sequence *)
Fixpoint e_outs (n : nat) (s : e_pcg) : list N :=
  match n with O => [] | S n => let '(s', v) := e_next s in v :: e_outs n s' end.
Fixpoint n_outs (n : nat) (s : pcg64c) : list N :=
  match n with O => [] | S n => let '(s', v) := p64_next s in v :: n_outs n s' end.
Lemma e_outs_native n : forall s, e_ok s -> e_outs n s = n_outs n (native s).
Proof.
  induction n as [|n IH]; intros s Hok; [reflexivity|]. cbn [e_outs n_outs].
  pose proof (e_next_native s Hok) as H. destruct (e_next s) as [s' v], (p64_next (native s)) as [n' w].
  destruct H as (<- & -> & Hk). now rewrite IH.
Qed.
