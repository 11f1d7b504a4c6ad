(* Draws of Philox and ThreeFry: next64, next32 and raw on top of the buffer of Ctr.v.

   Model of src/philox/philox.h:435-470 (_philoxNxW_next64_tpl64, _next64_tpl32,
   _next32_tpl), of the same templates in src/threefry/threefry.h:808-845, and of
   the raw functions of philox.pyx:30-42, 195-215 and threefry.pyx:30-42, 193-213. *)
From Verif Require Import Word Arr Common MultiWord Ctr Blocks Py CtrPy CtrFacts Buffer32.
From Coq Require Import ZifyBool ZifyNat ZifyN.
Open Scope N_scope.
Ltac Zify.zify_post_hook ::= idtac.

Section Draw.
  Variables (c : cls) (n w : N).

  (* _next64_tpl64: one value; _next64_tpl32: (next << 32) | next, where C leaves
     open which of the two calls comes first: lr = the left one *)
  Definition c_next64 (lr : bool) (s : cst) : option (cst * N) :=
    if w =? 64 then vnext c n w s
    else match vnext c n w s with
         | None => None
         | Some (s1, x) =>
             match vnext c n w s1 with
             | None => None
             | Some (s2, y) => Some (s2, if lr then N.lor (wshl 64 x 32) y else N.lor (wshl 64 y 32) x)
             end
         end.
  (* _next32_tpl: W is a constant, so one branch remains *)
  Definition c_next32 (s : cst) : option (cst * N) :=
    if w =? 32 then match vnext c n w s with Some (s1, v) => Some (s1, trunc 32 v) | None => None end
    else if c_has s then Some (Cst (c_ctr s) (c_key s) (c_pos s) (c_buf s) false (c_ui s), c_ui s)
    else match vnext c n w s with
         | Some (s1, v) => Some (Cst (c_ctr s1) (c_key s1) (c_pos s1) (c_buf s1) true (trunc 32 (N.shiftr v 32)), N.land v 0xffffffff)
         | None => None
         end.
  (* random_raw: next64 for the 64-bit variants, next32 for the others *)
  Definition c_raw (lr : bool) (s : cst) : option (cst * N) := if w =? 64 then c_next64 lr s else c_next32 s.

  Fixpoint crun (lr : bool) (rs : list req) (s : cst) : option (cst * list N) :=
    match rs with
    | [] => Some (s, [])
    | r :: rs =>
        match (match r with R32 => c_next32 s | R64 => c_next64 lr s end) with
        | None => None
        | Some (s1, v) => match crun lr rs s1 with None => None | Some (s2, vs) => Some (s2, v :: vs) end
        end
    end.
  (* the stored half *)
  Definition cqueue (s : cst) : option N := if c_has s then Some (c_ui s) else None.
  (* everything but the stored half *)
  Definition csame (s t : cst) : Prop := c_ctr s = c_ctr t /\ c_key s = c_key t /\ c_pos s = c_pos t /\ c_buf s = c_buf t.

  (* the states of a generator in use whose key words are in range *)
  Definition vok (s : cst) : Prop := vinv c n w s /\ words w (Z.to_nat (key_words c (Z.of_N n))) (c_key s).

  Hypothesis Hv : In (n, w) variants.
  Lemma blockfn_words key ctr : words w (Z.to_nat (key_words c (Z.of_N n))) key -> words w (N.to_nat n) ctr -> words w (N.to_nat n) (blockfn c (n, w) key ctr).
  Proof.
    clear - Hv. cbn in Hv. destruct Hv as [[= <- <-]|[[= <- <-]|[[= <- <-]|[[= <- <-]|[]]]]]; destruct c; cbn [blockfn]; intros K C;
    first [ apply (philox4x64_permutes key K) | apply (philox4x32_permutes key K) | apply (philox2x64_permutes key K) | apply (philox2x32_permutes key K)
          | apply (threefry4x64_permutes key) | apply (threefry4x32_permutes key) | apply (threefry2x64_permutes key) | apply (threefry2x32_permutes key)]; exact C.
  Qed.

  Lemma vstream_wf key i : words w (Z.to_nat (key_words c (Z.of_N n))) key -> wf w (vstream c n w key i).
  Proof.
    intros K. unfold vstream. pose proof (blockfn_words key (to_words w (N.to_nat n) (i / n)) K (conj (to_words_length _ _ _) (to_words_wf _ _ _))) as [L F].
    rewrite Forall_forall in F. assert (Hn : n <> 0) by (clear - Hv; cbn in Hv; destruct Hv as [[= <- _]|[[= <- _]|[[= <- _]|[[= <- _]|[]]]]]; lia).
    apply F, nth_In. rewrite L. pose proof (N.mod_lt i n Hn). lia.
  Qed.
  Lemma vnext_ok s : vok s -> exists s' v, vnext c n w s = Some (s', v) /\ vok s' /\ wf w v /\ c_has s' = c_has s /\ c_ui s' = c_ui s.
  Proof.
    intros [I K]. destruct (cnext_spec w (lgn n) (blockfn c (n, w)) (vlg n w Hv) (vw n w Hv) (vblk c n w Hv) s I) as (s' & E & I' & K' & _ & H & U).
    exists s', (cstream w (lgn n) (blockfn c (n, w)) (c_key s) (cpos w (lgn n) s)). split; [exact E|]. split; [split; [exact I'|rewrite K'; exact K]|].
    split; [rewrite (vstream_eq c n w Hv); now apply vstream_wf|auto].
  Qed.
  Definition put_half (h : bool) (u : N) (s : cst) : cst := Cst (c_ctr s) (c_key s) (c_pos s) (c_buf s) h u.
  Lemma put_half_same s t : csame s t -> t = put_half (c_has t) (c_ui t) s.
  Proof. destruct s, t. unfold csame, put_half. cbn. intros (-> & -> & -> & ->). reflexivity. Qed.
  Lemma put_half_ok h u s : vok s -> vok (put_half h u s).
  Proof. intros [I K]. split; [exact I|exact K]. Qed.
  Lemma vnext_put h u s : vnext c n w (put_half h u s) = match vnext c n w s with Some (t, v) => Some (put_half h u t, v) | None => None end.
  Proof.
    unfold vnext, cnext, put_half. cbn. destruct (c_pos s <? Z.of_N (2 ^ lgn n))%Z; [|reflexivity].
    destruct (rd (c_buf s) (c_pos s)); reflexivity.
  Qed.
  Notation nat_draws := (cdraws w (lgn n) (blockfn c (n, w))).
  Lemma draws_put h u k : forall s, nat_draws k (put_half h u s) = match nat_draws k s with Some (t, vs) => Some (put_half h u t, vs) | None => None end.
  Proof.
    induction k as [|k IH]; intros s; [reflexivity|]. cbn [cdraws]. change (cnext w (lgn n) (blockfn c (n, w))) with (vnext c n w). rewrite vnext_put.
    destruct (vnext c n w s) as [[s1 v]|]; [|reflexivity]. rewrite IH. destruct (nat_draws k s1) as [[s2 vs]|]; reflexivity.
  Qed.
  Lemma csame_put h u s : csame (put_half h u s) s. Proof. repeat split. Qed.

  Theorem crun64 lr rs : w = 64 -> forall s, vok s -> exists k s' ws t vs,
    crun lr rs s = Some (t, vs) /\ nat_draws k s = Some (s', ws) /\ spec rs (cqueue s) ws = Some (cqueue t, vs, []) /\ csame t s' /\ vok t.
  Proof.
    intros W. induction rs as [|r rs IH]; intros s H.
    - exists 0%nat, s, [], s, []. repeat split; try reflexivity; apply H.
    - destruct r; cbn [crun].
      + assert (E32 : c_next32 s = if c_has s then Some (put_half false (c_ui s) s, c_ui s)
          else match vnext c n w s with Some (s1, v) => Some (put_half true (trunc 32 (N.shiftr v 32)) s1, N.land v 0xffffffff) | None => None end)
          by (unfold c_next32; rewrite W; reflexivity).
        rewrite E32. destruct (c_has s) eqn:Hh.
        * destruct (IH (put_half false (c_ui s) s) (put_half_ok _ _ _ H)) as (k & s' & ws & t & vs & R & D & S & C & O).
          rewrite R. rewrite draws_put in D. destruct (nat_draws k s) as [[s'' ws']|] eqn:D'; [|discriminate]. injection D as <- <-.
          exists k, s'', ws', t, (c_ui s :: vs). split; [reflexivity|]. split; [exact D'|].
          split; [|split; [exact C|exact O]]. unfold cqueue at 1. rewrite Hh. cbn [spec]. unfold cqueue at 1 in S. cbn [put_half c_has] in S. now rewrite S.
        * destruct (vnext_ok s H) as (s1 & v & E & O1 & Wv & H1 & U1). rewrite E.
          destruct (IH (put_half true (trunc 32 (N.shiftr v 32)) s1) (put_half_ok _ _ _ O1)) as (k & s' & ws & t & vs & R & D & S & C & O).
          rewrite R. rewrite draws_put in D. destruct (nat_draws k s1) as [[s'' ws']|] eqn:D'; [|discriminate]. injection D as <- <-.
          exists (Datatypes.S k), s'', (v :: ws'), t, (N.land v 0xffffffff :: vs). split; [reflexivity|]. split.
          { cbn [cdraws]. change (cnext w (lgn n) (blockfn c (n, w))) with (vnext c n w). now rewrite E, D'. }
          split; [|split; [exact C|exact O]]. unfold cqueue at 1. rewrite Hh. cbn [spec]. unfold cqueue at 1 in S. cbn [put_half c_has c_ui] in S.
          assert (T : trunc 32 (N.shiftr v 32) = v / 2 ^ 32).
          { rewrite N.shiftr_div_pow2. apply trunc_small. unfold wf in *. rewrite W in Wv. apply N.div_lt_upper_bound; [discriminate|]. exact Wv. }
          rewrite T in S. rewrite S. change 0xffffffff with (N.ones 32). rewrite N.land_ones. reflexivity.
      + assert (E64 : c_next64 lr s = vnext c n w s) by (unfold c_next64; rewrite W; reflexivity). rewrite E64.
        destruct (vnext_ok s H) as (s1 & v & E & O1 & Wv & H1 & U1). rewrite E.
        destruct (IH s1 O1) as (k & s' & ws & t & vs & R & D & S & C & O). rewrite R.
        exists (Datatypes.S k), s', (v :: ws), t, (v :: vs). split; [reflexivity|]. split.
        { cbn [cdraws]. change (cnext w (lgn n) (blockfn c (n, w))) with (vnext c n w). now rewrite E, D. }
        split; [|split; [exact C|exact O]]. cbn [spec]. unfold cqueue in S at 1. rewrite H1, U1 in S. unfold cqueue at 1. now rewrite S.
  Qed.

  (* 32-bit variants: the words that a request hands out, in the order drawn *)
  Definition pieces (lr : bool) (r : req) (v : N) : list N :=
    match r with R32 => [v] | R64 => if lr then [v / 2 ^ 32; v mod 2 ^ 32] else [v mod 2 ^ 32; v / 2 ^ 32] end.
  Fixpoint all_pieces (lr : bool) (rs : list req) (vs : list N) : list N :=
    match rs, vs with r :: rs, v :: vs => pieces lr r v ++ all_pieces lr rs vs | _, _ => [] end.
  Lemma lor_halves x y : wf 32 x -> wf 32 y -> N.lor (wshl 64 x 32) y = x * 2 ^ 32 + y.
  Proof.
    intros X Y. unfold wshl, trunc, wf in *. rewrite N.shiftl_mul_pow2. rewrite N.land_ones || idtac. rewrite (N.mod_small (x * 2 ^ 32)) by (change (2 ^ 64) with (2 ^ 32 * 2 ^ 32); nia).
    rewrite <- N.shiftl_mul_pow2. rewrite <- N.lxor_lor, <- N.add_nocarry_lxor; [rewrite N.shiftl_mul_pow2; reflexivity| |]; apply N.bits_inj_0 || idtac;
    intros i || idtac; rewrite ?N.land_spec; destruct (N.lt_ge_cases i 32) as [L|L]; try (rewrite N.shiftl_spec_low by exact L; reflexivity);
    rewrite (proj1 (wf_testbit 32 y) Y i L); apply Bool.andb_false_r.
  Qed.
  Theorem crun32 lr rs : w = 32 -> forall s, vok s -> exists s' vs,
    crun lr rs s = Some (s', vs) /\ nat_draws (length (all_pieces lr rs vs)) s = Some (s', all_pieces lr rs vs) /\ length vs = length rs /\ vok s'.
  Proof.
    intros W. induction rs as [|r rs IH]; intros s H.
    - exists s, []. repeat split; try reflexivity; apply H.
    - destruct r; cbn [crun].
      + destruct (vnext_ok s H) as (s1 & v & E & O1 & Wv & H1 & U1).
        assert (E32 : c_next32 s = Some (s1, v)) by (unfold c_next32; rewrite E; rewrite W in Wv |- *; cbn [N.eqb Pos.eqb]; now rewrite trunc_small).
        rewrite E32. destruct (IH s1 O1) as (s' & vs & R & D & L & O). rewrite R. exists s', (v :: vs). split; [reflexivity|].
        split; [|split; [cbn [length]; now rewrite L|exact O]]. cbn [all_pieces pieces app length cdraws]. change (cnext w (lgn n) (blockfn c (n, w))) with (vnext c n w). now rewrite E, D.
      + destruct (vnext_ok s H) as (s1 & x & E & O1 & Wx & H1 & U1). destruct (vnext_ok s1 O1) as (s2 & y & F & O2 & Wy & H2 & U2).
        rewrite W in Wx, Wy.
        assert (E64 : c_next64 lr s = Some (s2, if lr then x * 2 ^ 32 + y else y * 2 ^ 32 + x)).
        { unfold c_next64. rewrite E, F. rewrite W at 1. cbn [N.eqb Pos.eqb]. now rewrite !lor_halves. }
        rewrite E64. destruct (IH s2 O2) as (s' & vs & R & D & L & O). rewrite R. exists s', ((if lr then x * 2 ^ 32 + y else y * 2 ^ 32 + x) :: vs). split; [reflexivity|].
        split; [|split; [cbn [length]; now rewrite L|exact O]].
        assert (P : pieces lr R64 (if lr then x * 2 ^ 32 + y else y * 2 ^ 32 + x) = [x; y]).
        { assert (D2 : forall a b, wf 32 b -> (a * 2 ^ 32 + b) / 2 ^ 32 = a /\ (a * 2 ^ 32 + b) mod 2 ^ 32 = b).
          { intros a b B. unfold wf in B. rewrite N.div_add_l by discriminate. rewrite (N.div_small b) by exact B. split; [apply N.add_0_r|].
            rewrite N.add_comm, N.mod_add by discriminate. now apply N.mod_small. }
          destruct lr; cbn [pieces]; [destruct (D2 x y Wy) as [-> ->]|destruct (D2 y x Wx) as [-> ->]]; reflexivity. }
        cbn [all_pieces]. rewrite P. cbn [app length cdraws]. change (cnext w (lgn n) (blockfn c (n, w))) with (vnext c n w). now rewrite E, F, D.
  Qed.
End Draw.
