(* The counter generators AESCounter and SPECK128: L parallel 128-bit counters
   ("lanes"), encrypted together into a buffer of 16*L bytes which is handed
   out 8 bytes at a time.

   Model of src/aesctr/aesctr.h:49-110, aesctr.c:150-204 (L = 4) and
   src/speck-128/speck-128.h:83-122, speck-128.c:47-86,
   speck-128-common.h:35-44 (L = 6), and of advance in aes.pyx and speck128.pyx.

   A lane is (u64[0], u64[1]). The block function enc, the counter increment
   inc and the test "buffer used up" are parameters of the section. *)
From Verif Require Import Word Arr Common MultiWord Buffer32.
From Coq Require Import ZifyBool ZifyNat ZifyN.
Open Scope N_scope.

Definition psplit (v : N) : N * N := (v mod 2 ^ 64, v / 2 ^ 64 mod 2 ^ 64).
Definition pval (p : N * N) : N := fst p + 2 ^ 64 * snd p.
Definition pwf (p : N * N) : Prop := wf 64 (fst p) /\ wf 64 (snd p).

(* memcpy(&output, &buf[o], 8), little endian; None: outside buf *)
Definition rd64 (b : list N) (o : Z) : option N :=
  if ((0 <=? o) && (o + 8 <=? Z.of_nat (length b)))%Z then Some (lv 8 (firstn 8 (skipn (Z.to_nat o) b))) else None.

Record lst (K : Type) := Lst { l_ctr : list (N * N); l_key : K; l_buf : list N; l_off : Z }.
Arguments Lst {K}. Arguments l_ctr {K}. Arguments l_key {K}. Arguments l_buf {K}. Arguments l_off {K}.

(* add adj to a lane and subtract L: aesctr.c:174-197, speck-128.c:68-79 *)
Definition lane_add (a : N * N) (p : N * N) : N * N :=
  let lo := wadd 64 (fst p) (fst a) in
  let hi := wadd 64 (snd p) (snd a) in
  (lo, if lo <? fst p then wadd 64 hi 1 else hi).
Definition lane_sub (k : N) (p : N * N) : N * N :=
  let lo := wsub 64 (fst p) k in
  (lo, if fst p <? lo then wsub 64 (snd p) 1 else snd p).

Section Lane.
  Context {K : Type}.
  Variables (L : N) (enc : K -> N * N -> N * N) (inc : N * N -> N * N) (full : Z -> bool) (wrapo : Z -> Z) (safe : K -> bool).

  (* encrypt all lanes into the buffer, add L to each. None: the cipher reads
     outside its key array *)
  Definition lgen (s : lst K) : option (lst K) :=
    if safe (l_key s) then
      Some (Lst (map inc (l_ctr s)) (l_key s)
              (flat_map (to_words 8 8) (flat_map (fun p => [fst (enc (l_key s) p); snd (enc (l_key s) p)]) (l_ctr s))) 0)
    else None.
  Definition lnext (s : lst K) : option (lst K * N) :=
    match (if full (l_off s) then lgen s else Some s) with
    | Some s => match rd64 (l_buf s) (l_off s) with
                | Some v => Some (Lst (l_ctr s) (l_key s) (l_buf s) (wrapo (l_off s + 8)), v)
                | None => None end
    | None => None
    end.
  Definition set_off (o : Z) (s : lst K) : lst K := Lst (l_ctr s) (l_key s) (l_buf s) o.
  (* aesctr_advance, speck_advance *)
  Definition ladv (step : list N) (s : lst K) : option (lst K) :=
    match (if (l_off s =? 16 * Z.of_N L)%Z then option_map (fun r => set_off 0 (fst r)) (lnext s) else Some s) with
    | None => None
    | Some s =>
        let s := set_off (wrapo (l_off s + 8 * Z.of_N (nth 0 step 0 mod 2))) s in
        let adj := (wadd 64 (nth 0 step 0 / 2) (wshl 64 (nth 1 step 0 mod 2) 63), wadd 64 (nth 1 step 0 / 2) (wshl 64 (nth 2 step 0 mod 2) 63)) in
        if (fst adj =? 0) && (snd adj =? 0) then Some s
        else
          let ctr := map (fun p => lane_sub L (lane_add adj p)) (l_ctr s) in
          option_map (fun r => set_off (l_off s) (fst r)) (lnext (Lst ctr (l_key s) (l_buf s) (16 * Z.of_N L)))
    end.
  (* aes.pyx advance, speck128.pyx advance *)
  Definition lpyadvance (delta : Z) (b : buffered (lst K)) : option (buffered (lst K)) :=
    let d := wrap_int delta 129 in
    if (d =? 0)%Z then Some b
    else option_map (fun s => Buf s false 0) (ladv (to_words 64 3 (Z.to_N d)) (core b)).
  (* jump_inplace(iter) *)
  Definition lpyjump (iter : Z) := lpyadvance (iter * 2 ^ 64).
  Fixpoint ldraws (k : nat) (s : lst K) : option (lst K * list N) :=
    match k with
    | O => Some (s, [])
    | S k => match lnext s with
             | Some (s1, v) => match ldraws k s1 with Some (s2, vs) => Some (s2, v :: vs) | None => None end
             | None => None end
    end.

  (* ---- specification ---- *)
  Definition Q : N := 2 ^ 129.
  (* value i of the output cycle: half i mod 2 of the encryption of counter i/2 *)
  Definition lstream (key : K) (i : N) : N :=
    let c := enc key (psplit (i / 2)) in if i mod 2 =? 0 then fst c else snd c.
  Definition base (s : lst K) : N := pval (hd (0, 0) (l_ctr s)).
  Definition lpos (s : lst K) : N := (2 * base s + (Q - 2 * L) + Z.to_N (l_off s) / 8) mod Q.

  Variable Kok : K -> Prop.
  Definition linv (s : lst K) : Prop :=
    Kok (l_key s) /\ base s < 2 ^ 128 /\ l_ctr s = map (fun j => psplit (base s + N.of_nat j)) (seq 0 (N.to_nat L))
    /\ exists k, k <= 2 * L /\ l_off s = (8 * Z.of_N k)%Z /\ N.of_nat (length (l_buf s)) = 16 * L
    /\ forall j, k <= j < 2 * L -> rd64 (l_buf s) (8 * Z.of_N j) = Some (lstream (l_key s) (2 * base s + (Q - 2 * L) + j)).

  Hypothesis HL : 1 <= L <= 100.
  Hypothesis Hinc : forall p, pwf p -> inc p = psplit (pval p + L).
  Hypothesis Hfull : full (16 * Z.of_N L) = true.
  Hypothesis Hnfull : forall o, (0 <= o < 16 * Z.of_N L)%Z -> full o = false.
  Hypothesis Hwrapo : forall o, (0 <= o < 2 ^ 20)%Z -> wrapo o = o.
  Hypothesis Hsafe : forall k, Kok k -> safe k = true.
  Hypothesis Henc : forall k p, Kok k -> pwf p -> pwf (enc k p).

  Lemma psplit_wf v : pwf (psplit v).
  Proof. split; apply N.mod_lt, pow2_nz. Qed.
  Lemma pval_psplit v : pval (psplit v) = v mod 2 ^ 128.
  Proof.
    unfold pval, psplit. cbn [fst snd]. change (2 ^ 128) with (2 ^ 64 * 2 ^ 64). now rewrite N.mod_mul_r by apply pow2_nz.
  Qed.
  Lemma psplit_mod v : psplit (v mod 2 ^ 128) = psplit v.
  Proof.
    unfold psplit. change (2 ^ 128) with (2 ^ 64 * 2 ^ 64). rewrite N.mod_mul_r by apply pow2_nz.
    rewrite (N.mul_comm (2 ^ 64) (_ mod _)). rewrite N.mod_add, N.mod_mod, N.div_add by apply pow2_nz.
    rewrite (N.div_small (v mod 2 ^ 64)) by apply N.mod_lt, pow2_nz. now rewrite N.add_0_l, N.mod_mod by apply pow2_nz.
  Qed.
  Lemma pval_lt p : pwf p -> pval p < 2 ^ 128.
  Proof. intros [A B]. unfold pval, wf in *. change (2 ^ 128) with (2 ^ 64 * 2 ^ 64). revert A B. generalize (2 ^ 64). clear. intros; nia. Qed.
  Lemma psplit_pval p : pwf p -> psplit (pval p) = p.
  Proof.
    intros [A B]. unfold pval, psplit, wf in *. rewrite (N.mul_comm (2 ^ 64)), N.mod_add, N.div_add by apply pow2_nz.
    rewrite (N.div_small (fst p)), N.add_0_l, !N.mod_small by assumption. now destruct p.
  Qed.
  Lemma pval_inj p q : pwf p -> pwf q -> pval p = pval q -> p = q.
  Proof. intros Hp Hq E. rewrite <- (psplit_pval p Hp), <- (psplit_pval q Hq). now rewrite E. Qed.
  Lemma lane_add_val a p : pwf a -> pwf p -> lane_add a p = psplit (pval p + pval a).
  Proof.
    intros Ha Hp. pose proof Ha as [A B]. pose proof Hp as [C D].
    assert (W : pwf (lane_add a p)) by (unfold lane_add; split; cbn [fst snd]; [apply wf_wadd|destruct (_ <? _); apply wf_wadd]).
    apply pval_inj; [exact W|apply psplit_wf|]. rewrite pval_psplit.
    pose proof (digit_carry 64 (fst p) (fst a) false eq_refl C A) as X. cbn zeta in X. cbn [N.b2n] in X.
    rewrite (wadd_0_r _ _ A) in X.
    assert (Z0 : (fst a =? 0) && (0 <? fst a) = false) by (clear; lia). rewrite Z0, Bool.orb_false_r in X. clear Z0.
    unfold lane_add, pval. cbn [fst snd]. change (2 ^ 128) with (2 ^ 64 * 2 ^ 64).
    assert (E : (if wadd 64 (fst p) (fst a) <? fst p then wadd 64 (wadd 64 (snd p) (snd a)) 1 else wadd 64 (snd p) (snd a))
                = (snd p + snd a + N.b2n (wadd 64 (fst p) (fst a) <? fst p)) mod 2 ^ 64).
    { destruct (_ <? _); cbn [N.b2n]; unfold wadd; [now rewrite mod_add_l by apply pow2_nz|now rewrite N.add_0_r]. }
    rewrite E. rewrite mod_mul_tail by (try apply pow2_nz; apply wf_wadd). f_equal.
    revert X. generalize (wadd 64 (fst p) (fst a)) (N.b2n (wadd 64 (fst p) (fst a) <? fst p)) (2 ^ 64). clear. intros; nia.
  Qed.
  Lemma psplit_mod_eq a b : a mod 2 ^ 128 = b mod 2 ^ 128 -> psplit a = psplit b.
  Proof. intros E. now rewrite <- (psplit_mod a), <- (psplit_mod b), E. Qed.
  Lemma wsub_case w a k : wf w a -> k < 2 ^ w -> wsub w a k = if a <? k then a + 2 ^ w - k else a - k.
  Proof.
    intros Ha Hk. unfold wsub, wf in *. rewrite (N.mod_small k) by exact Hk. revert Ha Hk. generalize (2 ^ w). clear. intros B Ha Hk.
    destruct (N.ltb_spec a k).
    - rewrite N.mod_small by lia. lia.
    - replace (a + (B - k)) with (a - k + 1 * B) by lia. rewrite N.mod_add by lia. apply N.mod_small. lia.
  Qed.
  Lemma lane_sub_val k p : 0 < k < 2 ^ 64 -> pwf p -> lane_sub k p = psplit (pval p + (2 ^ 128 - k)).
  Proof.
    intros Hk Hp. pose proof Hp as [C D].
    assert (W : pwf (lane_sub k p)) by (unfold lane_sub; split; cbn [fst snd]; [apply wf_wsub|destruct (_ <? _); [apply wf_wsub|exact D]]).
    apply pval_inj; [exact W|apply psplit_wf|]. rewrite pval_psplit.
    unfold lane_sub, pval. cbn [fst snd]. rewrite (wsub_case 64 (fst p) k) by (assumption || apply Hk).
    rewrite (wsub_case 64 (snd p) 1) by (assumption || reflexivity). unfold wf in C, D.
    change (2 ^ 128) with (2 ^ 64 * 2 ^ 64). revert C D Hk. generalize (fst p) (snd p). set (B := 2 ^ 64).
    assert (B1 : 1 < B) by reflexivity. clearbody B. clear - B1. intros x y C D Hk.
    destruct (N.ltb_spec x k) as [H|H].
    - replace (x <? x + B - k) with true by lia. destruct (N.ltb_spec y 1) as [H1|H1].
      + assert (y = 0) by lia. subst y. rewrite N.mod_small by nia. nia.
      + replace (x + B * y + (B * B - k)) with (x + B - k + B * (y - 1) + 1 * (B * B)) by nia.
        rewrite N.mod_add by nia. rewrite N.mod_small by nia. reflexivity.
    - replace (x <? x - k) with false by lia.
      replace (x + B * y + (B * B - k)) with (x - k + B * y + 1 * (B * B)) by nia.
      rewrite N.mod_add by nia. rewrite N.mod_small by nia. reflexivity.
  Qed.

  (* reading the buffer of words *)
  Lemma rd64_words ws : Forall (wf 64) ws -> forall j, (j < length ws)%nat ->
    rd64 (flat_map (to_words 8 8) ws) (8 * Z.of_nat j) = Some (nth j ws 0).
  Proof.
    intros Hw.
    assert (Len : forall ws, length (flat_map (to_words 8 8) ws) = (8 * length ws)%nat).
    { clear. induction ws as [|x ws IH]; [reflexivity|]. cbn [flat_map length]. rewrite app_length, IH, to_words_length. lia. }
    intros j Hj. unfold rd64. rewrite Len.
    replace ((0 <=? 8 * Z.of_nat j)%Z && (8 * Z.of_nat j + 8 <=? Z.of_nat (8 * length ws))%Z) with true by (clear - Hj; lia).
    f_equal. replace (Z.to_nat (8 * Z.of_nat j)) with (8 * j)%nat by (clear; lia). clear Len.
    induction Hw as [|x ws Hx Hw IH] in j, Hj |- *; [cbn in Hj; lia|]. destruct j as [|j].
    - change (8 * 0)%nat with O. rewrite skipn_O. cbn [flat_map].
      rewrite firstn_app. replace (8 - length (to_words 8 8 x))%nat with O by now rewrite to_words_length.
      rewrite firstn_O, app_nil_r, firstn_all2 by now rewrite to_words_length.
      rewrite to_words_val. change (8 * N.of_nat 8) with 64. now rewrite N.mod_small by exact Hx.
    - cbn [flat_map nth]. replace (8 * S j)%nat with (8 + 8 * j)%nat by (clear; lia).
      rewrite skipn_app. rewrite skipn_all2 by (rewrite to_words_length; clear; lia). cbn [app].
      rewrite to_words_length. replace (8 + 8 * j - 8)%nat with (8 * j)%nat by (clear; lia).
      apply IH. cbn in Hj. clear - Hj. lia.
  Qed.
  Lemma rd64_bytes_length ws : length (flat_map (to_words 8 8) ws) = (8 * length ws)%nat.
  Proof. clear. induction ws as [|x ws IH]; [reflexivity|]. cbn [flat_map length]. rewrite app_length, IH, to_words_length. lia. Qed.
  Lemma flat2_length (f : N * N -> N) g ps : length (flat_map (fun p => [f p; g p]) ps) = (2 * length ps)%nat.
  Proof. clear. induction ps as [|p ps IH]; [reflexivity|]. cbn [flat_map app length]. rewrite IH. lia. Qed.
  Lemma flat2_nth (f : N * N -> N) g ps : forall i, (i < length ps)%nat ->
    nth (2 * i) (flat_map (fun p => [f p; g p]) ps) 0 = f (nth i ps (0, 0)) /\
    nth (2 * i + 1) (flat_map (fun p => [f p; g p]) ps) 0 = g (nth i ps (0, 0)).
  Proof.
    clear. induction ps as [|p ps IH]; intros i Hi; [cbn in Hi; lia|]. destruct i as [|i]; [cbn; auto|].
    replace (2 * S i)%nat with (S (S (2 * i))) by lia. cbn [flat_map app Nat.add nth]. apply IH. cbn in Hi. lia.
  Qed.

  Lemma Qnz : Q <> 0. Proof. discriminate. Qed.
  Lemma lstream_mod key i : lstream key (i mod Q) = lstream key i.
  Proof.
    unfold lstream, Q. change (2 ^ 129) with (2 * 2 ^ 128). rewrite N.mod_mul_r by discriminate.
    rewrite (N.mul_comm 2 (_ mod _)), N.mod_add, N.div_add, N.mod_mod by discriminate.
    rewrite (N.div_small (i mod 2)) by (apply N.mod_lt; discriminate). rewrite N.add_0_l, psplit_mod. reflexivity.
  Qed.
  Lemma lstream_eq key i j : i mod Q = j mod Q -> lstream key i = lstream key j.
  Proof. intros E. now rewrite <- (lstream_mod key i), <- (lstream_mod key j), E. Qed.

  (* lanes as a function of the first *)
  Definition lanes (c : N) : list (N * N) := map (fun j => psplit (c + N.of_nat j)) (seq 0 (N.to_nat L)).
  Lemma lanes_mod c : lanes (c mod 2 ^ 128) = lanes c.
  Proof. unfold lanes. apply map_ext. intros j. apply psplit_mod_eq. apply mod_add_l, pow2_nz. Qed.
  Lemma lanes_hd c : pval (hd (0, 0) (lanes c)) = c mod 2 ^ 128.
  Proof.
    unfold lanes. destruct (N.to_nat L) as [|n] eqn:E; [exfalso; clear - E HL; lia|]. cbn [seq map hd].
    rewrite pval_psplit. now rewrite N.add_0_r.
  Qed.
  Lemma lanes_map f d c : (forall p, pwf p -> f p = psplit (pval p + d)) -> map f (lanes c) = lanes (c + d).
  Proof.
    intros H. unfold lanes. rewrite map_map. apply map_ext. intros j. rewrite H by apply psplit_wf.
    rewrite pval_psplit. apply psplit_mod_eq. rewrite mod_add_l by apply pow2_nz. f_equal. clear. lia.
  Qed.
  Lemma lanes_length c : length (lanes c) = N.to_nat L.
  Proof. unfold lanes. now rewrite map_length, seq_length. Qed.
  Lemma lanes_nth c i : (i < N.to_nat L)%nat -> nth i (lanes c) (0, 0) = psplit (c + N.of_nat i).
  Proof.
    intros Hi. unfold lanes. rewrite (nth_indep _ _ (psplit (c + N.of_nat 0))) by now rewrite map_length, seq_length.
    rewrite (map_nth (fun j => psplit (c + N.of_nat j))). now rewrite seq_nth.
  Qed.
  Lemma linv_eq s : linv s <-> Kok (l_key s) /\ base s < 2 ^ 128 /\ l_ctr s = lanes (base s)
    /\ exists k, k <= 2 * L /\ l_off s = (8 * Z.of_N k)%Z /\ N.of_nat (length (l_buf s)) = 16 * L
    /\ forall j, k <= j < 2 * L -> rd64 (l_buf s) (8 * Z.of_N j) = Some (lstream (l_key s) (2 * base s + (Q - 2 * L) + j)).
  Proof. reflexivity. Qed.
  Lemma lgen_spec c key buf off : Kok key ->
    exists b, lgen (Lst (lanes c) key buf off) = Some (Lst (lanes (c + L)) key b 0)
    /\ N.of_nat (length b) = 16 * L /\ forall j, j < 2 * L -> rd64 b (8 * Z.of_N j) = Some (lstream key (2 * c + j)).
  Proof.
    intros Hk. unfold lgen. cbn [l_key l_ctr]. rewrite (Hsafe key Hk). eexists. split; [rewrite (lanes_map inc L c Hinc); reflexivity|].
    set (ws := flat_map _ (lanes c)).
    assert (Lw : length ws = (2 * N.to_nat L)%nat) by (unfold ws; rewrite flat2_length, lanes_length; reflexivity).
    split; [rewrite rd64_bytes_length, Lw; clear; lia|].
    intros j Hj. replace (8 * Z.of_N j)%Z with (8 * Z.of_nat (N.to_nat j))%Z by (clear; lia).
    rewrite rd64_words.
    - f_equal. unfold lstream.
      assert (Hi : (N.to_nat (j / 2) < N.to_nat L)%nat) by (clear - Hj; pose proof (N.div_lt_upper_bound j 2 L); lia).
      destruct (flat2_nth (fun p => fst (enc key p)) (fun p => snd (enc key p)) (lanes c) _ (eq_ind_r (fun n => (_ < n)%nat) Hi (lanes_length c))) as [E0 E1].
      fold ws in E0, E1. rewrite (lanes_nth _ _ Hi), N2Nat.id in E0, E1.
      rewrite (N.mul_comm 2 c), N.add_comm, N.mod_add, N.div_add, N.add_comm by discriminate.
      pose proof (N.div_mod j 2 ltac:(discriminate)) as D. pose proof (N.mod_lt j 2 ltac:(discriminate)) as M.
      destruct (N.eqb_spec (j mod 2) 0) as [Z|Z].
      + rewrite <- E0. f_equal. clear - D Z. lia.
      + rewrite <- E1. f_equal. clear - D Z M. lia.
    - unfold ws. apply Forall_flat_map. apply Forall_forall. intros p Hp. unfold lanes in Hp. apply in_map_iff in Hp.
      destruct Hp as (i & <- & _). destruct (Henc key (psplit (c + N.of_nat i)) Hk (psplit_wf _)). auto.
    - rewrite Lw. clear - Hj. lia.
  Qed.
  Lemma dbl_mod c x : (2 * (c mod 2 ^ 128) + x) mod Q = (2 * c + x) mod Q.
  Proof.
    unfold Q. change (2 ^ 129) with (2 * 2 ^ 128). rewrite <- (mod_add_l (2 * c)) by discriminate.
    rewrite N.mul_mod_distr_l by discriminate. reflexivity.
  Qed.
  Definition good (c : N) (key : K) (b : list N) (k : N) : Prop :=
    N.of_nat (length b) = 16 * L /\ forall j, k <= j < 2 * L -> rd64 b (8 * Z.of_N j) = Some (lstream key (2 * c + (Q - 2 * L) + j)).
  Lemma mk_linv c key b k : Kok key -> k <= 2 * L -> good c key b k ->
    linv (Lst (lanes c) key b (8 * Z.of_N k)) /\ lpos (Lst (lanes c) key b (8 * Z.of_N k)) = (2 * c + (Q - 2 * L) + k) mod Q.
  Proof.
    intros Hk Hkl [Hb Hj]. split.
    - apply linv_eq. cbn [l_key l_ctr l_off l_buf]. unfold base. cbn [l_ctr]. rewrite lanes_hd, lanes_mod.
      split; [exact Hk|]. split; [apply N.mod_lt, pow2_nz|]. split; [reflexivity|]. exists k. split; [exact Hkl|]. split; [reflexivity|].
      split; [exact Hb|]. intros j Hjj. rewrite (Hj j Hjj). f_equal. apply lstream_eq.
      rewrite <- !N.add_assoc. symmetry. apply dbl_mod.
    - unfold lpos, base. cbn [l_ctr l_off]. rewrite lanes_hd, <- !N.add_assoc, dbl_mod. do 3 f_equal.
      clear. replace (Z.to_N (8 * Z.of_N k)) with (k * 8) by lia. apply N.div_mul. discriminate.
  Qed.
  Lemma linv_shape s : linv s -> exists c key b k, s = Lst (lanes c) key b (8 * Z.of_N k) /\ Kok key /\ k <= 2 * L /\ good c key b k.
  Proof.
    intros H. apply linv_eq in H. destruct H as (Hk & Hb & Hc & k & Hkl & Ho & Hl & Hj). exists (base s), (l_key s), (l_buf s), k.
    split; [|split; [exact Hk|split; [exact Hkl|split; [exact Hl|exact Hj]]]].
    destruct s as [ctr key buf off]. cbn [l_key l_buf l_off l_ctr] in *. rewrite Ho. f_equal. exact Hc.
  Qed.
  Lemma regen_good c key b j0 : N.of_nat (length b) = 16 * L -> (forall j, j < 2 * L -> rd64 b (8 * Z.of_N j) = Some (lstream key (2 * c + j))) ->
    good (c + L) key b j0.
  Proof.
    intros Hl Hj. split; [exact Hl|]. intros j Hjj. rewrite Hj by apply Hjj. f_equal. apply lstream_eq.
    assert (QL : 2 * L <= Q) by (apply N.le_trans with 200; [clear - HL; lia|discriminate]).
    replace (2 * (c + L) + (Q - 2 * L) + j) with (2 * c + j + 1 * Q) by (clear - QL; lia). now rewrite N.mod_add by exact Qnz.
  Qed.

  Theorem lnext_spec s : linv s -> exists s', lnext s = Some (s', lstream (l_key s) (lpos s)) /\ linv s' /\ l_key s' = l_key s
    /\ lpos s' = (lpos s + 1) mod Q.
  Proof.
    intros H. destruct (linv_shape s H) as (c & key & b & k & -> & Hk & Hkl & Hg). cbn [l_key].
    destruct (mk_linv c key b k Hk Hkl Hg) as [_ P]. rewrite P. unfold lnext. cbn [l_off].
    destruct (N.eq_dec k (2 * L)) as [->|Nk].
    - replace (8 * Z.of_N (2 * L))%Z with (16 * Z.of_N L)%Z by (clear; lia). rewrite Hfull.
      destruct (lgen_spec c key b (16 * Z.of_N L) Hk) as (b' & E & Hl & Hj). rewrite E. cbn [l_buf l_off l_ctr l_key].
      pose proof (Hj 0 ltac:(clear - HL; lia)) as R0. change (8 * Z.of_N 0)%Z with 0%Z in R0. rewrite R0.
      assert (B1 : 1 <= 2 * L) by (clear - HL; lia).
      destruct (mk_linv (c + L) key b' 1 Hk B1 (regen_good c key b' 1 Hl Hj)) as [I' P'].
      rewrite (Hwrapo (0 + 8)) by (clear; lia). change (0 + 8)%Z with (8 * Z.of_N 1)%Z.
      assert (QL : 2 * L <= Q) by (apply N.le_trans with 200; [clear - HL; lia|discriminate]).
      assert (EP : (2 * c + (Q - 2 * L) + 2 * L) mod Q = (2 * c) mod Q).
      { replace (2 * c + (Q - 2 * L) + 2 * L) with (2 * c + 1 * Q) by (clear - QL; lia). now rewrite N.mod_add by exact Qnz. }
      eexists. split; [f_equal; f_equal; rewrite EP, lstream_mod, N.add_0_r; reflexivity|]. split; [exact I'|]. split; [reflexivity|].
      rewrite P', EP, mod_add_l by exact Qnz.
      replace (2 * (c + L) + (Q - 2 * L) + 1) with (2 * c + 1 + 1 * Q) by (clear - QL; lia). now rewrite N.mod_add by exact Qnz.
    - rewrite Hnfull by (clear - Nk Hkl; lia). cbn [l_buf l_off l_ctr l_key].
      pose proof Hg as [Hl Hj]. rewrite (Hj k) by (clear - Nk Hkl; lia). rewrite Hwrapo by (clear - HL Hkl; lia).
      replace (8 * Z.of_N k + 8)%Z with (8 * Z.of_N (k + 1))%Z by (clear; lia).
      assert (Hk1 : k + 1 <= 2 * L) by (clear - Hkl Nk; lia).
      assert (Hg1 : good c key b (k + 1)) by (split; [exact Hl|intros j Hjj; apply Hj; clear - Hjj; lia]).
      destruct (mk_linv c key b (k + 1) Hk Hk1 Hg1) as [I' P'].
      eexists. split; [rewrite lstream_mod; reflexivity|]. split; [exact I'|]. split; [reflexivity|].
      rewrite P', mod_add_l by exact Qnz. f_equal. clear. lia.
  Qed.
  Theorem ldraws_spec k : forall s, linv s -> exists s',
    ldraws k s = Some (s', map (fun i => lstream (l_key s) (lpos s + N.of_nat i)) (seq 0 k))
    /\ linv s' /\ l_key s' = l_key s /\ lpos s' = (lpos s + N.of_nat k) mod Q.
  Proof.
    assert (PL : forall s, lpos s = lpos s mod Q) by (intros s; unfold lpos; now rewrite N.mod_mod by exact Qnz).
    induction k as [|k IH]; intros s Hi.
    - exists s. cbn. rewrite N.add_0_r. auto.
    - destruct (lnext_spec s Hi) as (s1 & E1 & I1 & K1 & P1). destruct (IH s1 I1) as (s2 & E2 & I2 & K2 & P2).
      exists s2. cbn [ldraws]. rewrite E1, E2. rewrite K1, P1 in *. split.
      + f_equal. f_equal. cbn [seq map]. rewrite N.add_0_r. f_equal. rewrite <- seq_shift, map_map. apply map_ext. intros i.
        apply lstream_eq. rewrite mod_add_l by exact Qnz. f_equal. clear. lia.
      + split; [exact I2|]. split; [exact K2|]. rewrite P2, mod_add_l by exact Qnz. f_equal. clear. lia.
  Qed.
  Theorem l_indist s t k : linv s -> linv t -> l_key s = l_key t -> lpos s = lpos t ->
    option_map snd (ldraws k s) = option_map snd (ldraws k t).
  Proof.
    intros Hs Ht Ek Ep. destruct (ldraws_spec k s Hs) as (s' & E & _). destruct (ldraws_spec k t Ht) as (t' & F & _).
    rewrite E, F, Ek, Ep. reflexivity.
  Qed.

  (* the refreshed form of a state at the end of its buffer *)
  Lemma adj_val d : d < 2 ^ 129 ->
    let step := to_words 64 3 d in
    nth 0 step 0 mod 2 = d mod 2 /\
    (wadd 64 (nth 0 step 0 / 2) (wshl 64 (nth 1 step 0 mod 2) 63), wadd 64 (nth 1 step 0 / 2) (wshl 64 (nth 2 step 0 mod 2) 63)) = psplit (d / 2).
  Proof.
    intros Hd. cbn zeta. set (step := to_words 64 3 d).
    assert (Hlen : length step = 3%nat) by apply to_words_length.
    assert (Hwf : Forall (wf 64) step) by apply to_words_wf.
    assert (Hv : lv 64 step = d).
    { unfold step. rewrite to_words_val. apply N.mod_small. eapply N.lt_le_trans; [exact Hd|]. apply N.pow_le_mono_r; discriminate. }
    assert (H0 : nth 0 step 0 mod 2 = d mod 2).
    { unfold step. cbn [to_words nth]. change (2 ^ 64) with (2 * 2 ^ 63). rewrite N.mod_mul_r by discriminate.
      rewrite (N.mul_comm 2), N.mod_add by discriminate. now rewrite N.mod_mod by discriminate. }
    split; [exact H0|].
    pose proof (adjs_val 64 1 step ltac:(discriminate) Hwf) as Hadj. rewrite Hv in Hadj.
    pose proof (adjs_wf 64 1 step Hwf) as Hawf.
    assert (D2 : d / 2 < 2 ^ 128) by (apply N.div_lt_upper_bound; [discriminate|exact Hd]).
    change (2 ^ 1) with 2 in Hadj. set (h := d / 2) in *. clearbody h. clear Hv Hd H0. clearbody step.
    destruct step as [|x [|y [|z [|]]]]; try discriminate. cbn [nth]. cbn [adjs] in Hadj, Hawf. change (2 ^ 1) with 2 in *. change (64 - 1) with 63 in *.
    pose proof (Forall_inv Hawf) as W0. pose proof (Forall_inv (Forall_inv_tail Hawf)) as W1. clear Hwf Hlen Hawf. set (a0 := wadd 64 (x / 2) _) in *. set (a1 := wadd 64 (y / 2) _) in *. set (a2 := z / 2) in *.
    clearbody a0 a1 a2. cbn [lv] in Hadj. rewrite N.mul_0_r, (N.add_0_r a2) in Hadj.
    rewrite <- Hadj in D2 |- *. clear Hadj.
    assert (a2 = 0). { change (2 ^ 128) with (2 ^ 64 * 2 ^ 64) in D2. revert D2. assert (P : 0 < 2 ^ 64) by reflexivity. revert P. generalize (2 ^ 64). clear. intros; nia. }
    subst a2. rewrite N.mul_0_r, N.add_0_r. symmetry. exact (psplit_pval (a0, a1) (conj W0 W1)).
  Qed.
  Theorem ladv_spec d s : d < 2 ^ 129 -> linv s ->
    exists s', ladv (to_words 64 3 d) s = Some s' /\ linv s' /\ l_key s' = l_key s /\ lpos s' = (lpos s + d) mod Q.
  Proof.
    intros Hd H. destruct (adj_val d Hd) as [Hodd Hadj]. cbn zeta in Hodd, Hadj.
    assert (QL : 2 * L <= Q) by (apply N.le_trans with 200; [clear - HL; lia|discriminate]).
    (* first step: refresh *)
    assert (R : exists c key b k, (if (l_off s =? 16 * Z.of_N L)%Z then option_map (fun r => set_off 0 (fst r)) (lnext s) else Some s)
                = Some (Lst (lanes c) key b (8 * Z.of_N k)) /\ Kok key /\ k < 2 * L /\ good c key b k /\ key = l_key s /\ lpos s = (2 * c + (Q - 2 * L) + k) mod Q).
    { destruct (linv_shape s H) as (c & key & b & k & -> & Hk & Hkl & Hg). cbn [l_key l_off].
      destruct (mk_linv c key b k Hk Hkl Hg) as [_ P].
      destruct (N.eq_dec k (2 * L)) as [->|Nk].
      - replace (8 * Z.of_N (2 * L) =? 16 * Z.of_N L)%Z with true by (clear; lia).
        unfold lnext. cbn [l_off]. replace (8 * Z.of_N (2 * L))%Z with (16 * Z.of_N L)%Z in * by (clear; lia). rewrite Hfull.
        destruct (lgen_spec c key b (16 * Z.of_N L) Hk) as (b' & E & Hl & Hj). rewrite E. cbn [l_buf l_off l_ctr l_key].
        pose proof (Hj 0 ltac:(clear - HL; lia)) as R0. change (8 * Z.of_N 0)%Z with 0%Z in R0. rewrite R0.
        cbn [option_map fst]. unfold set_off. cbn [l_buf l_off l_ctr l_key].
        exists (c + L), key, b', 0. split; [reflexivity|]. split; [exact Hk|]. split; [clear - HL; lia|]. split; [now apply regen_good|]. split; [reflexivity|].
        rewrite P. f_equal. clear - QL. lia.
      - replace (8 * Z.of_N k =? 16 * Z.of_N L)%Z with false by (clear - Nk Hkl; lia).
        exists c, key, b, k. split; [reflexivity|]. split; [exact Hk|]. split; [clear - Nk Hkl; lia|]. split; [exact Hg|]. split; [reflexivity|exact P]. }
    destruct R as (c & key & b & k & E & Hk & Hkl & Hg & EK & EP). unfold ladv. rewrite E. rewrite <- EK, EP. clear E EK EP H s.
    rewrite Hodd, Hadj. unfold set_off. cbn [l_off l_ctr l_key l_buf].
    assert (M2 : d mod 2 < 2) by (apply N.mod_lt; discriminate). set (r := d mod 2) in *.
    assert (Dd : d = 2 * (d / 2) + r) by (apply N.div_mod; discriminate). clearbody r.
    rewrite Hwrapo by (clear - HL Hkl M2; lia).
    replace (8 * Z.of_N k + 8 * Z.of_N r)%Z with (8 * Z.of_N (k + r))%Z by (clear; lia).
    assert (Hkr : k + r <= 2 * L) by (clear - Hkl M2; lia).
    assert (Hgr : good c key b (k + r)) by (destruct Hg as [A B]; split; [exact A|intros j Hj; apply B; clear - Hj; lia]).
    assert (D2 : d / 2 < 2 ^ 128) by (apply N.div_lt_upper_bound; [discriminate|exact Hd]). set (h := d / 2) in *. clearbody h. clear Hd Hodd Hadj.
    destruct ((fst (psplit h) =? 0) && (snd (psplit h) =? 0)) eqn:Z.
    - assert (h = 0).
      { rewrite <- (N.mod_small h (2 ^ 128)) by exact D2. rewrite <- pval_psplit. unfold pval. apply andb_true_iff in Z. destruct Z as [A B].
        apply N.eqb_eq in A. apply N.eqb_eq in B. now rewrite A, B. }
      subst h. eexists. split; [reflexivity|]. destruct (mk_linv c key b (k + r) Hk Hkr Hgr) as [I' P'].
      split; [exact I'|]. split; [reflexivity|]. rewrite P', mod_add_l by exact Qnz. f_equal. clear - Dd. lia.
    - clear Z. unfold lnext. cbn [l_off]. rewrite Hfull.
      assert (EM : map (fun p => lane_sub L (lane_add (psplit h) p)) (lanes c) = lanes (c + (h + (2 ^ 128 - L)))).
      { apply lanes_map. intros p Hp. rewrite (lane_add_val (psplit h) p (psplit_wf h) Hp). rewrite lane_sub_val.
        - rewrite !pval_psplit. apply psplit_mod_eq. rewrite mod_add_l by apply pow2_nz.
          rewrite <- N.add_assoc. rewrite (N.add_comm (pval p)), <- N.add_assoc. rewrite mod_add_l by apply pow2_nz. f_equal. clear. lia.
        - clear - HL. split; [lia|]. apply N.le_lt_trans with 100; [lia|reflexivity].
        - apply psplit_wf. }
      rewrite EM. destruct (lgen_spec (c + (h + (2 ^ 128 - L))) key b (16 * Z.of_N L) Hk) as (b' & E & Hl & Hj). rewrite E. cbn [l_buf l_off l_ctr l_key].
      pose proof (Hj 0 ltac:(clear - HL; lia)) as R0. change (8 * Z.of_N 0)%Z with 0%Z in R0. rewrite R0.
      cbn [option_map fst l_ctr l_key l_buf].
      destruct (mk_linv _ key b' (k + r) Hk Hkr (regen_good _ key b' (k + r) Hl Hj)) as [I' P'].
      eexists. split; [reflexivity|]. split; [exact I'|]. split; [reflexivity|]. rewrite P', mod_add_l by exact Qnz.
      assert (L128 : L <= 2 ^ 128) by (apply N.le_trans with 100; [clear - HL; lia|discriminate]).
      replace (2 * (c + (h + (2 ^ 128 - L)) + L) + (Q - 2 * L) + (k + r)) with (2 * c + (Q - 2 * L) + k + d + 1 * Q).
      + now rewrite N.mod_add by exact Qnz.
      + rewrite Dd. unfold Q in *. change (2 ^ 129) with (2 * 2 ^ 128) in *. clear - L128 QL. lia.
  Qed.
  Theorem lpyadvance_spec delta b : linv (core b) -> exists b', lpyadvance delta b = Some b' /\ linv (core b') /\ l_key (core b') = l_key (core b)
    /\ Z.of_N (lpos (core b')) = ((Z.of_N (lpos (core b)) + delta) mod Z.of_N Q)%Z
    /\ ((delta mod 2 ^ 129 <> 0)%Z -> has32 b' = false) /\ ((delta mod 2 ^ 129 = 0)%Z -> b' = b).
  Proof.
    intros Hi. unfold lpyadvance. rewrite wrap_int_mod. change (Z.of_N 129) with 129%Z.
    assert (LP : lpos (core b) < Q) by (unfold lpos; apply N.mod_lt, Qnz).
    change (Z.of_N Q) with (2 ^ 129)%Z.
    assert (LPZ : (0 <= Z.of_N (lpos (core b)) < 2 ^ 129)%Z) by (change (2 ^ 129)%Z with (Z.of_N Q); clear - LP; lia).
    assert (MZ : (0 <= delta mod 2 ^ 129 < 2 ^ 129)%Z) by (apply Z.mod_pos_bound; reflexivity).
    rewrite Zplus_mod. rewrite (Z.mod_small _ _ LPZ).
    set (dm := (delta mod 2 ^ 129)%Z) in *. clearbody dm.
    destruct (Z.eqb_spec dm 0) as [E|E].
    - exists b. split; [reflexivity|]. split; [exact Hi|]. split; [reflexivity|]. rewrite E, Z.add_0_r, Z.mod_small by exact LPZ. split; [reflexivity|]. split; [contradiction|auto].
    - assert (Hd : Z.to_N dm < 2 ^ 129) by (change (2 ^ 129) with (Z.to_N (2 ^ 129)); apply Z2N.inj_lt; clear - MZ; lia).
      destruct (ladv_spec (Z.to_N dm) (core b) Hd Hi) as (s' & E' & I' & K' & P'). rewrite E'. eexists. split; [reflexivity|]. cbn [core has32].
      split; [exact I'|]. split; [exact K'|]. rewrite P'. split; [|split; [reflexivity|contradiction]].
      rewrite N2Z.inj_mod, N2Z.inj_add, Z2N.id by apply MZ. reflexivity.
  Qed.
  (* the buffer always holds bytes *)
  Lemma lgen_bytes s s' : lgen s = Some s' -> Forall (wf 8) (l_buf s').
  Proof.
    unfold lgen. destruct (safe (l_key s)); [|discriminate]. intros E. inversion E. cbn [l_buf].
    apply Forall_flat_map, Forall_forall. intros x _. exact (to_words_wf 8 8 x).
  Qed.
  Lemma lnext_bytes s s' v : lnext s = Some (s', v) -> Forall (wf 8) (l_buf s) -> Forall (wf 8) (l_buf s').
  Proof.
    unfold lnext. intros E H. destruct (full (l_off s)).
    - destruct (lgen s) as [t|] eqn:G; [|discriminate]. apply lgen_bytes in G. destruct (rd64 _ _); [|discriminate]. inversion E. exact G.
    - destruct (rd64 _ _); [|discriminate]. inversion E. exact H.
  Qed.
  Lemma ldraws_bytes k : forall s s' vs, ldraws k s = Some (s', vs) -> Forall (wf 8) (l_buf s) -> Forall (wf 8) (l_buf s').
  Proof.
    induction k as [|k IH]; intros s s' vs E H; cbn [ldraws] in E; [inversion E; subst; exact H|].
    destruct (lnext s) as [[s1 v]|] eqn:N1; [|discriminate]. destruct (ldraws k s1) as [[s2 ws]|] eqn:D; [|discriminate].
    inversion E; subst. exact (IH _ _ _ D (lnext_bytes _ _ _ N1 H)).
  Qed.
  Lemma ladv_bytes st s s' : ladv st s = Some s' -> Forall (wf 8) (l_buf s) -> Forall (wf 8) (l_buf s').
  Proof.
    unfold ladv. intros E H.
    assert (H1 : forall s1, (if (l_off s =? 16 * Z.of_N L)%Z then option_map (fun r => set_off 0 (fst r)) (lnext s) else Some s) = Some s1 ->
      Forall (wf 8) (l_buf s1)).
    { intros s1 E1. destruct (_ =? _)%Z; [|inversion E1; subst; exact H].
      destruct (lnext s) as [[t v]|] eqn:N1; [|discriminate]. inversion E1. exact (lnext_bytes _ _ _ N1 H). }
    destruct (if (l_off s =? 16 * Z.of_N L)%Z then _ else _) as [s1|]; [|discriminate]. specialize (H1 s1 eq_refl).
    destruct (_ && _); [inversion E; exact H1|].
    match type of E with option_map _ (lnext ?x) = _ => destruct (lnext x) as [[t v]|] eqn:N1; [|discriminate] end.
    inversion E. exact (lnext_bytes _ _ _ N1 H1).
  Qed.
  Lemma lpyadvance_bytes d b b' : lpyadvance d b = Some b' -> Forall (wf 8) (l_buf (core b)) -> Forall (wf 8) (l_buf (core b')).
  Proof.
    unfold lpyadvance. destruct (_ =? _)%Z; [intros E; inversion E; auto|].
    destruct (ladv _ _) as [s|] eqn:A; [|discriminate]. intros E. inversion E. exact (ladv_bytes _ _ _ A).
  Qed.
  (* what linv says of the shape *)
  Lemma linv_bounds s : linv s -> Forall pwf (l_ctr s) /\ length (l_ctr s) = N.to_nat L /\ length (l_buf s) = N.to_nat (16 * L) /\ (0 <= l_off s <= 16 * Z.of_N L)%Z.
  Proof.
    intros (_ & _ & C & k & Hk & O & Lb & _). rewrite C, O. refine (conj _ (conj _ (conj _ _))).
    - apply Forall_map, Forall_forall. intros x _. apply psplit_wf.
    - now rewrite map_length, seq_length.
    - rewrite <- Lb. now rewrite Nat2N.id.
    - clear - Hk. lia.
  Qed.
  Lemma lpos_lt s : lpos s < Q.
  Proof. apply N.mod_lt. unfold Q. apply pow2_nz. Qed.
  (* jumps add up *)
  Lemma lpyadvance_add d e b b1 b2 b3 : linv (core b) -> lpyadvance d b = Some b1 -> lpyadvance e b1 = Some b2 -> lpyadvance (d + e) b = Some b3 ->
    lpos (core b2) = lpos (core b3) /\ l_key (core b2) = l_key (core b3) /\ linv (core b2) /\ linv (core b3).
  Proof.
    intros Hi E1 E2 E3.
    destruct (lpyadvance_spec d b Hi) as (x1 & F1 & I1 & K1 & P1 & _). rewrite E1 in F1. injection F1 as <-.
    destruct (lpyadvance_spec e b1 I1) as (x2 & F2 & I2 & K2 & P2 & _). rewrite E2 in F2. injection F2 as <-.
    destruct (lpyadvance_spec (d + e) b Hi) as (x3 & F3 & I3 & K3 & P3 & _). rewrite E3 in F3. injection F3 as <-.
    refine (conj _ (conj _ (conj I2 I3))); [|congruence].
    apply N2Z.inj. rewrite P2, P1, P3, Zplus_mod_idemp_l. f_equal. clear. lia.
  Qed.
End Lane.
