(* C79: the arguments mode, numpy_seed, inc and variant. C80: the legacy tuple form
   of the MT19937 state. *)
From Verif Require Import Word Common Buffer32 Lcg Py Pcg PcgFacts PcgSeed Mt19937 Mt19937Facts PcgInit.
From Coq Require Import String Ascii ZifyBool ZifyNat ZifyN DecimalString DecimalZ DecimalFacts.
Open Scope N_scope.
Ltac Zify.zify_post_hook ::= idtac.
Notation length := List.length.

(* ------------------------------------------------------------------ C79: mode *)
(* A mode is accepted exactly when it is absent or a string that names a supported
   mode in any mixture of cases *)
Theorem C79_mode_accepted :
  forall supported numpy_seed mode,
  (exists b, init_mode supported numpy_seed mode = Ok b) <-> mode = MAbsent \/ exists s, mode = MText s /\ In (lower s) supported.
Proof.
  intros sup n m. destruct m as [|s|]; cbn [init_mode].
  - split; [now left|now exists n].
  - unfold in_names. split.
    + intros [b E]. right. exists s. split; [reflexivity|]. destruct (existsb _ _) eqn:X; [|discriminate].
      apply existsb_exists in X as (y & Y & Z). apply String.eqb_eq in Z. now subst y.
    + intros [X|(t & X & I)]; [discriminate X|]. injection X as <-.
      replace (existsb _ _) with true; [eexists; reflexivity|]. symmetry. apply existsb_exists. exists (lower s). split; [exact I|apply String.eqb_refl].
  - split; [intros [b E]; discriminate E|]. intros [X|(t & X & I)]; discriminate X.
Qed.
Theorem C79_mode_error : forall supported numpy_seed mode e, init_mode supported numpy_seed mode = Raise e -> e = ValueError.
Proof. intros sup n [|s|] e; cbn; [discriminate|destruct (in_names _ _); [discriminate|congruence]|congruence]. Qed.
(* numpy-compatible seeding is on exactly when asked for in one of the two ways;
   numpy_seed=True wins over mode="sequence" *)
Theorem C79_mode_result :
  forall supported numpy_seed mode b, init_mode supported numpy_seed mode = Ok b ->
  (b = true <-> numpy_seed = true \/ exists s, mode = MText s /\ lower s = "numpy"%string).
Proof.
  intros sup n m b. destruct m as [|s|]; cbn [init_mode]; [|destruct (in_names _ _); [|discriminate]|discriminate]; intros [= <-].
  - split; [now left|]. intros [H|(s & E & _)]; [exact H|discriminate E].
  - rewrite orb_true_iff, String.eqb_eq. split; (intros [H|H]; [now left|right]).
    + now exists s.
    + destruct H as (t & E & H). now injection E as <-.
Qed.
(* a class without numpy-compatible seeding never gets that mode *)
Theorem C79_mode_one : forall mode b, init_mode modes_one false mode = Ok b -> b = false.
Proof.
  intros m b. destruct m as [|s|]; cbn [init_mode]; [now intros [= <-]| |discriminate].
  unfold in_names, modes_one. cbn [existsb]. rewrite orb_false_r. destruct (String.eqb _ _) eqn:E; [|discriminate].
  apply String.eqb_eq in E. rewrite E. now intros [= <-].
Qed.
(* the documentation allows mode=None *)
Theorem C79_mode_none_refuted : forall supported numpy_seed, init_mode supported numpy_seed MOther = Raise ValueError.
Proof. reflexivity. Qed.
Example C79_mode_case : init_mode modes_two false (MText "NumPy") = Ok true /\ init_mode modes_one false (MText "numpy") = Raise ValueError
  /\ init_mode modes_two true (MText "sequence") = Ok true.
Proof. vm_compute. repeat split. Qed.

(* ------------------------------------------------------------- C79: variant *)
Lemma str_int z t n : NilZero.int_of_string t = Some n -> NilZero.string_of_int (Z.to_int z) = t -> z = Z.of_int n.
Proof.
  intros H E. rewrite <- E in H. rewrite <- (DecimalZ.of_to z). f_equal.
  rewrite NilZero.isi in H; [now injection H| |]; destruct z as [|p|p]; cbn; try discriminate; intros X; injection X; now apply DecimalPos.Unsigned.to_uint_nonnil.
Qed.
Lemma lower1_idem c : lower1 (lower1 c) = lower1 c.
Proof. now destruct c as [[] [] [] [] [] [] [] []]. Qed.
Lemma lower_idem s : lower (lower s) = lower s.
Proof. induction s as [|c s IH]; [reflexivity|]. cbn. now rewrite lower1_idem, IH. Qed.
Lemma in_names_In l s : in_names l s = true <-> In s l.
Proof.
  unfold in_names. rewrite existsb_exists. split; [intros (y & Y & Z); apply String.eqb_eq in Z; now subst|].
  intros I. exists s. split; [exact I|apply String.eqb_refl].
Qed.
Definition variant_result (a : variant_arg) : outcome variant := obind (variant_text a) variant_of.
(* the documented values, and what they mean *)
Theorem C79_variant_documented :
  map variant_result [VText "xsl-rr"; VText "1.0"; VInt 1] = repeat (Ok XslRr) 3
  /\ map variant_result [VNone; VText "dxsm"; VText "cm-dxsm"; VInt 2; VText "2.0"] = repeat (Ok CmDxsm) 5
  /\ variant_result (VText "dxsm-128") = Ok Dxsm128.
Proof. vm_compute. repeat split. Qed.
(* of the integers exactly these; the minus sign is taken for a dash *)
Theorem C79_variant_numbers : forall z, (exists v, variant_result (VInt z) = Ok v) <-> (Z.abs z = 1 \/ Z.abs z = 2)%Z.
Proof.
  intros z. split.
  - intros [v E]. cbn [variant_result variant_text obind] in E. unfold variant_result, variant_text, obind, variant_of in E.
    destruct (in_names _ _) eqn:I; [|discriminate E]. clear E.
    assert (D : forall u, (forall c, In c (list_ascii_of_string (NilEmpty.string_of_uint u)) -> (48 <=? N_of_ascii c) && (N_of_ascii c <=? 57) = true)).
    { induction u; cbn; [contradiction| ..]; (intros c [<-|H]; [reflexivity|now apply IHu]). }
    assert (U : forall t, (forall c, In c (list_ascii_of_string t) -> (48 <=? N_of_ascii c) && (N_of_ascii c <=? 57) = true) -> undash (lower t) = t).
    { induction t as [|c t IH]; intros H; [reflexivity|]. cbn [lower undash]. pose proof (H c (or_introl eq_refl)) as C.
      assert (L : lower1 c = c). { unfold lower1. apply andb_true_iff in C as [C1 C2]. apply N.leb_le in C1, C2. replace ((65 <=? N_of_ascii c) && (N_of_ascii c <=? 90)) with false by lia. reflexivity. }
      rewrite L. destruct (Ascii.eqb c "-") eqn:X; [apply Ascii.eqb_eq in X; subst c; discriminate C|]. f_equal. apply IH. intros a Ha. apply H. now right. }
    assert (NZ : forall u, (forall c, In c (list_ascii_of_string (NilZero.string_of_uint u)) -> (48 <=? N_of_ascii c) && (N_of_ascii c <=? 57) = true)).
    { intros u. destruct u; cbn; [intros c [<-|[]]; reflexivity| ..]; apply (D (Decimal.D0 u)) || apply (D (Decimal.D1 u)) || apply (D (Decimal.D2 u)) || apply (D (Decimal.D3 u))
      || apply (D (Decimal.D4 u)) || apply (D (Decimal.D5 u)) || apply (D (Decimal.D6 u)) || apply (D (Decimal.D7 u)) || apply (D (Decimal.D8 u)) || apply (D (Decimal.D9 u)). }
    assert (P : forall u, In (NilZero.string_of_uint u) variant_names -> NilZero.string_of_uint u = "1"%string \/ NilZero.string_of_uint u = "2"%string).
    { intros u. pose proof (NZ u) as H. generalize dependent (NilZero.string_of_uint u). intros t H J.
      unfold variant_names in J. cbn [In] in J.
      repeat (destruct J as [J|J]; [subst t; first [now left|now right|exfalso; pose proof (H "x"%char); pose proof (H "."%char); pose proof (H "c"%char); cbn in *; intuition discriminate]|]).
      contradiction. }
    apply in_names_In in I. destruct (Z.to_int z) as [u|u] eqn:Z.
    + cbn [NilZero.string_of_int] in I. rewrite (U _ (NZ u)) in I. destruct (P u I) as [Q|Q]; [left; rewrite (str_int z "1"%string (Decimal.Pos (Decimal.D1 Decimal.Nil)))|right; rewrite (str_int z "2"%string (Decimal.Pos (Decimal.D2 Decimal.Nil)))];
        try reflexivity; now rewrite Z.
    + cbn [NilZero.string_of_int lower undash] in I. change (Ascii.eqb (lower1 "-") "-") with true in I. cbv iota in I. rewrite (U _ (NZ u)) in I.
      destruct (P u I) as [Q|Q]; [left; rewrite (str_int z "-1"%string (Decimal.Neg (Decimal.D1 Decimal.Nil)))|right; rewrite (str_int z "-2"%string (Decimal.Neg (Decimal.D2 Decimal.Nil)))];
        try reflexivity; rewrite Z; cbn [NilZero.string_of_int]; now rewrite Q.
  - intros H. assert (z = 1 \/ z = -1 \/ z = 2 \/ z = -2)%Z as [-> | [-> | [-> | ->]]] by (clear - H; lia); vm_compute; eexists; reflexivity.
Qed.
Theorem C79_variant_negative_refuted : variant_result (VInt (-1)) = Ok XslRr /\ variant_result (VInt (-2)) = Ok CmDxsm.
Proof. vm_compute. split; reflexivity. Qed.
(* case does not matter *)
Theorem C79_variant_case : forall s, variant_of (lower s) = variant_of s.
Proof. intros s. unfold variant_of. now rewrite lower_idem. Qed.

(* --------------------------------------------------- C79: inc, PCG64 and DXSM *)
Lemma np_u128_in z : (0 <= z < 2 ^ 128)%Z -> np_u128 z = Ok (Z.to_N z).
Proof. intros H. rewrite <- (Z2N.id z) at 1 by apply H. apply np_u128_ok. unfold wf. change (2 ^ 128)%Z with (Z.of_N (2 ^ 128)) in H. apply N2Z.inj_lt. rewrite Z2N.id by apply H. apply H. Qed.
Lemma np_uint_out z : (z < 0 \/ 2 ^ 64 <= z)%Z -> np_uint 64 z = Raise OverflowError.
Proof.
  intros H. unfold np_uint. change (2 ^ Z.of_N 64)%Z with (2 ^ 64)%Z. destruct ((0 <=? z) && (z <? 2 ^ 64))%Z eqn:E; [|reflexivity].
  apply andb_true_iff in E as [A B]. apply Z.leb_le in A. apply Z.ltb_lt in B. destruct H as [H|H]; [now apply Z.lt_nge in H|now apply Z.le_ngt in H].
Qed.
Lemma np_u128_out z : (z < 0 \/ 2 ^ 128 <= z)%Z -> np_u128 z = Raise OverflowError.
Proof.
  intros H. unfold np_u128. rewrite np_uint_out; [reflexivity|]. destruct H as [H|H].
  - left. apply Z.div_lt_upper_bound; [reflexivity|]. now rewrite Z.mul_0_r.
  - right. apply Z.div_le_lower_bound; [reflexivity|]. exact H.
Qed.
Section Pcg64.
  Context (Sq : Type) (seq_words : Sq -> N -> list N).
  Notation py_seed := (pcg64_py_seed Sq seq_words).
  Notation py_new := (pcg64_py_new Sq seq_words).
  Notation py_jumped := (pcg64_py_jumped Sq seq_words).
  Definition hi2 (q : Sq) (n : N) : N := pair128 (seq_words q n) 0.

  (* seed(seed, inc) with an increment in the documented range *)
  Theorem C79_pcg64_seed_inc : forall q z (o : pcg64o Sq), po_numpy o = false -> (0 <= z < 2 ^ 128)%Z ->
    py_seed true q (IInt z) o = (PO q false (pcg64_seed (p_var (core (po_st o))) (hi2 q 2) (Z.to_N z)), Ok tt).
  Proof.
    intros q z [q0 n s] N H. cbn in N. subst n. unfold pcg64_py_seed, drop_inc, inc_check.
    replace ((z <? 0) || (2 ^ 128 <? z))%Z with false; [|symmetry; apply orb_false_iff; split; apply Z.ltb_ge; [apply H|apply Z.lt_le_incl, H]].
    unfold bind, lift, modify, read. cbn [po_numpy po_st po_seq]. unfold pcg64_from_seq. cbn [inc_int obind]. rewrite np_u128_in by exact H. reflexivity.
  Qed.
  (* without: four words of the seed sequence *)
  Theorem C79_pcg64_seed_default : forall seeded q (o : pcg64o Sq),
    py_seed seeded q INone o = (PO q (po_numpy o) (pcg64_seed (p_var (core (po_st o))) (hi2 q 4) (pair128 (seq_words q 4) 2)), Ok tt).
  Proof. now intros [] q [q0 n s]. Qed.
  (* so the numpy-compatible mode and the default agree *)
  Theorem C79_pcg64_numpy_is_default : forall q, exists o o',
    py_new true MAbsent true q INone (VText "xsl-rr") = Ok o /\ py_new false MAbsent true q INone (VText "xsl-rr") = Ok o' /\ po_st o = po_st o'.
  Proof. intros q. eexists _, _. split; [reflexivity|split; reflexivity]. Qed.
  (* integers outside [0, 2**128] are rejected and nothing is changed *)
  Theorem C79_pcg64_seed_rejects : forall q z (o : pcg64o Sq), (z < 0 \/ 2 ^ 128 < z)%Z -> py_seed true q (IInt z) o = (o, Raise ValueError).
  Proof.
    intros q z o H. unfold pcg64_py_seed, drop_inc, inc_check.
    replace ((z <? 0) || (2 ^ 128 <? z))%Z with true; [reflexivity|]. symmetry. apply orb_true_iff. destruct H as [H|H]; [left|right]; now apply Z.ltb_lt.
  Qed.
  (* 2**128 itself passes the check; the store into the array of two words raises
     OverflowError, after the seed sequence of the object has been replaced *)
  Theorem C79_pcg64_inc_bound_refuted : forall q (o : pcg64o Sq), po_numpy o = false ->
    py_seed true q (IInt (2 ^ 128)) o = (PO q false (po_st o), Raise OverflowError).
  Proof. intros q [q0 n s] N. cbn in N. subst n. reflexivity. Qed.
  (* without a seed inc is ignored, whatever it is *)
  Theorem C79_pcg64_inc_without_seed_refuted : forall q inc (o : pcg64o Sq) ns m va,
    py_seed false q inc o = py_seed false q INone o /\ py_new ns m false q inc va = py_new ns m false q INone va.
  Proof. now intros q inc o ns m va. Qed.
  (* an exception in seed leaves the generator's state alone *)
  Theorem C79_pcg64_seed_raises_state : forall seeded q inc (o o' : pcg64o Sq) e, py_seed seeded q inc o = (o', Raise e) -> po_st o' = po_st o /\ po_numpy o' = po_numpy o.
  Proof.
    intros sd q inc [q0 n s] o' e. unfold pcg64_py_seed. generalize (drop_inc sd inc). clear inc. intros inc.
    unfold bind, lift, modify, read. destruct (inc_check _ inc) as [[]|e1]; [|now intros [= <- _]].
    cbn [po_numpy po_st po_seq]. destruct (pcg64_from_seq _ _ _ _ _ _); [discriminate|]. now intros [= <- _].
  Qed.
  (* the constructor *)
  Theorem C79_pcg64_new : forall q z va v, (0 <= z < 2 ^ 128)%Z -> variant_result va = Ok v ->
    py_new false MAbsent true q (IInt z) va = Ok (PO q false (pcg64_seed v (hi2 q 2) (Z.to_N z))).
  Proof.
    intros q z va v H V. unfold pcg64_py_new. cbn [init_mode obind]. unfold variant_result in V.
    destruct (variant_text va) as [t|e]; [|discriminate V]. cbn [obind] in V |- *. rewrite V. cbn [obind andb drop_inc]. now rewrite C79_pcg64_seed_inc by (reflexivity || exact H).
  Qed.
  (* the documentation says inc is 0 unless given: it comes from the seed sequence,
     so a generator with the default differs from the one with inc = 0 unless the
     two last of its words happen to be 0 (except for the top bit) *)
  Theorem C79_pcg64_default_inc_refuted : forall q va v, variant_result va = Ok v ->
    wf 128 (hi2 q 2) -> wf 128 (hi2 q 4) -> wf 128 (pair128 (seq_words q 4) 2) -> hi2 q 2 = hi2 q 4 ->
    (py_new false MAbsent true q INone va = py_new false MAbsent true q (IInt 0) va <-> pair128 (seq_words q 4) 2 mod 2 ^ 127 = 0).
  Proof.
    intros q va v V W2 W4 Wi E. rewrite (C79_pcg64_new q 0 va v) by (exact V || (split; [reflexivity|now compute])).
    assert (N : py_new false MAbsent true q INone va = Ok (PO q false (pcg64_seed v (hi2 q 4) (pair128 (seq_words q 4) 2)))).
    { unfold pcg64_py_new. cbn [init_mode obind]. unfold variant_result in V. destruct (variant_text va) as [t|e]; [|discriminate V]. cbn [obind] in V |- *. rewrite V. cbn [obind andb drop_inc]. now rewrite C79_pcg64_seed_default. }
    rewrite N, E. unfold pcg64_seed. pose proof (p64_initialize_inj v (hi2 q 4) (hi2 q 4) (pair128 (seq_words q 4) 2) 0 W4 W4 Wi (wf_0 128)) as [A B].
    change (Z.to_N 0) with 0. split.
    - intros X. apply A. exact (f_equal (fun r => match r with Ok o => core (po_st o) | Raise _ => P64 0 0 XslRr end) X).
    - intros X. rewrite B; [reflexivity|]. now split.
  Qed.
  (* PCG64DXSM: the class PCG64 with the variant dxsm, never in the numpy-compatible mode *)
  Theorem C79_dxsm_new : forall q z, exists v, variant_result (VText "dxsm") = Ok v /\ v = CmDxsm /\
    ((0 <= z < 2 ^ 128)%Z -> dxsm_py_new Sq seq_words true q (IInt z) = Ok (PO q false (pcg64_seed v (hi2 q 2) (Z.to_N z)))) /\
    (forall sd, dxsm_py_new Sq seq_words sd q INone = Ok (PO q false (pcg64_seed v (hi2 q 4) (pair128 (seq_words q 4) 2)))) /\
    ((z < 0 \/ 2 ^ 128 < z)%Z -> dxsm_py_new Sq seq_words true q (IInt z) = Raise ValueError).
  Proof.
    intros q z. exists CmDxsm. split; [reflexivity|]. split; [reflexivity|]. split; [intros H; exact (C79_pcg64_new q z (VText "dxsm") CmDxsm H eq_refl)|]. split; [now intros []|].
    intros H. change (match py_seed true q (IInt z) (PO q false (Buf (P64 0 0 CmDxsm) false 0)) with (o, Ok _) => Ok o | (_, Raise e) => Raise e end = @Raise (pcg64o Sq) ValueError).
    now rewrite (C79_pcg64_seed_rejects q z).
  Qed.
  (* numpy-compatible seeding: only the exact text "xsl-rr", not its documented
     aliases, and no inc *)
  Theorem C79_pcg64_numpy_new : forall m seeded q inc va, init_mode modes_two true m = Ok true ->
    (exists o, py_new true m seeded q inc va = Ok o) <-> variant_text va = Ok "xsl-rr"%string /\ (seeded = false \/ inc = INone).
  Proof.
    intros m sd q inc va M. unfold pcg64_py_new. rewrite M. cbn [obind]. split.
    - intros [o E]. destruct (variant_text va) as [t|]; [|discriminate E]. cbn [obind] in E. destruct (variant_of t); [|discriminate E]. cbn [obind andb] in E.
      destruct (String.eqb t "xsl-rr") eqn:T; [|discriminate E]. apply String.eqb_eq in T. subst t. split; [reflexivity|]. cbn [negb] in E.
      destruct sd; [right|now left]. cbn [drop_inc] in E. destruct inc; [reflexivity|discriminate E..].
    - intros [V I]. rewrite V. cbn [obind]. change (variant_of "xsl-rr") with (Ok XslRr). cbn [obind andb]. change (negb (String.eqb "xsl-rr" "xsl-rr")) with false. cbv iota.
      assert (D : drop_inc sd inc = INone) by (destruct I as [-> | ->]; [reflexivity|now destruct sd]). rewrite D. cbn [andb]. rewrite C79_pcg64_seed_default. eexists. reflexivity.
  Qed.
  Theorem C79_pcg64_numpy_alias_refuted : forall q va, In va [VText "1.0"; VInt 1; VText "XSL-RR"] ->
    variant_result va = Ok XslRr /\ py_new true MAbsent true q INone va = Raise ValueError.
  Proof. intros q va [<-|[<-|[<-|[]]]]; now vm_compute. Qed.

  (* ----------------------------------------------------- jumped() and the mode *)
  (* what construction and every seeding establish *)
  Definition modes_agree (o : pcg64o Sq) : Prop := po_numpy o = true -> p_var (core (po_st o)) = XslRr.
  Theorem C79_pcg64_new_modes : forall ns m sd q inc va o, py_new ns m sd q inc va = Ok o -> modes_agree o.
  Proof.
    intros ns m sd q inc va o. unfold pcg64_py_new. destruct (init_mode _ _ _) as [n|]; [|discriminate]. cbn [obind].
    destruct (variant_text va) as [t|]; [|discriminate]. cbn [obind]. destruct (variant_of t) as [v|] eqn:V; [|discriminate]. cbn [obind].
    destruct (n && negb (String.eqb t "xsl-rr")) eqn:X; [discriminate|]. destruct (n && match drop_inc sd inc with INone => false | _ => true end); [discriminate|].
    generalize (drop_inc sd inc). clear inc. intros inc. destruct (pcg64_py_seed _ _ _ _ _ _) as [o' [[]|e]] eqn:E; [|discriminate]. intros [= <-].
    unfold pcg64_py_seed, bind, lift, modify, read in E. destruct (inc_check _ _) as [[]|]; [|discriminate E]. cbn [po_numpy po_st po_seq] in E.
    destruct (pcg64_from_seq _ _ _ _ _ _) as [s|] eqn:F; [|discriminate E]. injection E as <-. unfold modes_agree. cbn [po_numpy po_st]. intros ->.
    cbn [andb] in X. apply negb_false_iff in X. apply String.eqb_eq in X. subst t. injection V as <-.
    unfold pcg64_from_seq in F. destruct (drop_inc sd inc); [injection F as <-; reflexivity|discriminate F..].
  Qed.
  Lemma seed_var v a b : p_var (core (pcg64_seed v a b)) = v.
  Proof. reflexivity. Qed.
  Lemma from_seq_var q n v inc s : pcg64_from_seq Sq seq_words q n v inc = Ok s -> p_var (core s) = v.
  Proof.
    unfold pcg64_from_seq. destruct inc; try (intros [= <-]; reflexivity); (destruct n; [discriminate|]; destruct (inc_int _) as [z'|]; [|discriminate]; cbn [obind]; destruct (np_u128 z') as [i|]; [|discriminate];
      cbn [obind]; intros X; injection X as <-; apply seed_var).
  Qed.
  Theorem C79_pcg64_seed_modes : forall sd q inc (o o' : pcg64o Sq) r, modes_agree o -> py_seed sd q inc o = (o', r) -> modes_agree o'.
  Proof.
    intros sd q inc [q0 n s] o' r A. unfold pcg64_py_seed. generalize (drop_inc sd inc). clear inc. intros inc.
    unfold bind, lift, modify, read. destruct (inc_check _ inc) as [[]|e1]; [|now intros [= <- _]].
    cbn [po_numpy po_st po_seq]. destruct (pcg64_from_seq _ _ _ _ _ _) as [t|] eqn:F; [|now intros [= <- _]]. intros [= <- _].
    unfold modes_agree in *. cbn [po_numpy po_st] in *. now rewrite (from_seq_var _ _ _ _ _ F).
  Qed.
  (* jumped(): the state jumped ahead, the same mode and a copy of the seed sequence *)
  Theorem C79_pcg64_jumped : forall iter (o : pcg64o Sq), modes_agree o -> pcg64_wf (po_st o) ->
    py_jumped iter o = Ok (PO (po_seq o) (po_numpy o) (pcg64_jump_inplace iter (po_st o))).
  Proof.
    intros iter [q n s] A W. unfold modes_agree in A. cbn [po_seq po_numpy po_st] in *. unfold pcg64_py_jumped. cbn [po_seq po_numpy po_st].
    assert (E : exists t, pcg64_wf t /\ py_new n MAbsent true q INone (VText (variant_name (p_var (core s)))) = Ok (PO q n t)).
    { exists (pcg64_seed (p_var (core s)) (hi2 q 4) (pair128 (seq_words q 4) 2)). split.
      - unfold pcg64_seed, pcg64_wf. cbn [core u32]. split; [|split; [|exact (wf_0 32)]].
        + unfold p64_initialize, p64_step, lcg_step. cbn [p_state]. unfold wf, wadd. apply N.mod_lt. discriminate.
        + unfold p64_initialize, p64_step. cbn [p_inc]. unfold wf, wshl. apply wf_lor; [apply wf_trunc|reflexivity].
      - unfold pcg64_py_new. cbn [init_mode obind variant_text].
        assert (V : variant_of (variant_name (p_var (core s))) = Ok (p_var (core s))) by (destruct (p_var (core s)); reflexivity). rewrite V. cbn [obind].
        assert (T : n && negb (String.eqb (variant_name (p_var (core s))) "xsl-rr") = false) by (destruct n; [rewrite A by reflexivity; reflexivity|reflexivity]). rewrite T.
        cbn [drop_inc]. rewrite andb_false_r. now rewrite C79_pcg64_seed_default. }
    destruct E as (t & Wt & E). rewrite E. cbn [obind po_st po_seq po_numpy]. unfold pcg64_jumped, bind. rewrite (pcg64_restores s t W Wt). reflexivity.
  Qed.
  (* ... so it is reseeded like the original *)
  Theorem C79_pcg64_jumped_reseed : forall iter (o j : pcg64o Sq) sd q inc, modes_agree o -> pcg64_wf (po_st o) ->
    py_jumped iter o = Ok j ->
    snd (py_seed sd q inc j) = snd (py_seed sd q inc o) /\ (snd (py_seed sd q inc o) = Ok tt -> fst (py_seed sd q inc j) = fst (py_seed sd q inc o)).
  Proof.
    intros iter o j sd q inc A W J. rewrite (C79_pcg64_jumped iter o A W) in J. injection J as <-. destruct o as [q0 n s].
    unfold pcg64_py_seed. generalize (drop_inc sd inc). clear inc. intros inc. unfold bind, lift, modify, read. destruct (inc_check _ inc) as [[]|]; [|now split].
    cbn [po_numpy po_st po_seq]. change (p_var (core (pcg64_jump_inplace iter s))) with (p_var (core s)). destruct (pcg64_from_seq _ _ _ _ _ _); now split.
  Qed.
  (* a state with another variant, assigned to an object in numpy mode: jumped() raises *)
  Theorem C79_pcg64_jumped_refuted : forall iter (o : pcg64o Sq), po_numpy o = true -> p_var (core (po_st o)) <> XslRr -> py_jumped iter o = Raise ValueError.
  Proof. intros iter [q n s] N V. cbn [po_numpy po_st] in *. subst n. unfold pcg64_py_jumped. cbn [po_numpy po_st po_seq]. destruct (p_var (core s)); [congruence|reflexivity..]. Qed.
  (* ... and assigning the state of any PCG64 with that variant makes such an object *)
  Theorem C79_pcg64_state_variant : forall s t, pcg64_wf s -> pcg64_wf t -> pcg64_set (pcg64_get s) t = (s, Ok tt).
  Proof. exact pcg64_restores. Qed.
End Pcg64.
(* a seed sequence given by its words: the hypotheses are met *)
Definition seq1 (q : N) (n : N) : list N := map (fun i => q + N.of_nat i) (seq 0 (N.to_nat n)).
Example C79_pcg64_case :
  (exists o, pcg64_py_new N seq1 false MAbsent true 7 (IInt 5) (VText "DXSM-128") = Ok o /\ modes_agree N o /\ p_inc (core (po_st o)) = 11)
  /\ (exists o, pcg64_py_new N seq1 true MAbsent true 7 INone (VText "xsl-rr") = Ok o /\ po_numpy o = true /\ p_var (core (po_st o)) = XslRr)
  /\ hi2 N seq1 7 2 = hi2 N seq1 7 4 /\ pair128 (seq1 7 4) 2 mod 2 ^ 127 <> 0.
Proof.
  split; [|split; [|split; [reflexivity|vm_compute; discriminate]]]; eexists; (split; [reflexivity|]); (split; [|reflexivity]); [discriminate|reflexivity].
Qed.

(* ------------------------------------------------------------- C79: inc, PCG32 *)
Section Pcg32.
  Context (Sq : Type) (seq_words : Sq -> N -> list N).
  Notation py_seed := (pcg32_py_seed Sq seq_words).
  Theorem C79_pcg32_seed_inc : forall cyf q z (o : pcg32o Sq), (0 <= z < 2 ^ 64)%Z ->
    py_seed cyf q (IInt z) o = (PO32 q (pcg32_srandom (nth 0 (seq_words q 2) 0) (Z.to_N z)), Ok tt).
  Proof.
    intros cyf q z [q0 s] H. unfold pcg32_py_seed, inc_check.
    replace ((z <? 0) || (2 ^ 64 <? z))%Z with false; [|symmetry; apply orb_false_iff; split; apply Z.ltb_ge; [apply H|apply Z.lt_le_incl, H]].
    unfold bind, lift, modify, read, pcg32_from_seq, to_uint. change (2 ^ Z.of_N 64)%Z with (2 ^ 64)%Z.
    replace ((0 <=? z) && (z <? 2 ^ 64))%Z with true; [reflexivity|]. symmetry. apply andb_true_iff. split; [apply Z.leb_le|apply Z.ltb_lt]; apply H.
  Qed.
  Theorem C79_pcg32_seed_default : forall cyf q (o : pcg32o Sq),
    py_seed cyf q INone o = (PO32 q (pcg32_srandom (nth 0 (seq_words q 2) 0) (nth 1 (seq_words q 2) 0)), Ok tt).
  Proof. now intros cyf q [q0 s]. Qed.
  Theorem C79_pcg32_seed_rejects : forall cyf q z (o : pcg32o Sq), (z < 0 \/ 2 ^ 64 < z)%Z -> py_seed cyf q (IInt z) o = (o, Raise ValueError).
  Proof.
    intros cyf q z o H. unfold pcg32_py_seed, inc_check.
    replace ((z <? 0) || (2 ^ 64 <? z))%Z with true; [reflexivity|]. symmetry. apply orb_true_iff. destruct H as [H|H]; [left|right]; now apply Z.ltb_lt.
  Qed.
  (* "an integer in [0, 2**64]": the upper end raises OverflowError, with the new
     seed sequence already installed *)
  Theorem C79_pcg32_inc_bound_refuted : forall cyf q (o : pcg32o Sq), py_seed cyf q (IInt (2 ^ 64)) o = (PO32 q (po32_st o), Raise OverflowError).
  Proof. now intros cyf q [q0 s]. Qed.
  Theorem C79_pcg32_seed_raises_state : forall cyf q inc (o o' : pcg32o Sq) e, py_seed cyf q inc o = (o', Raise e) -> po32_st o' = po32_st o.
  Proof.
    intros cyf q inc [q0 s] o' e. unfold pcg32_py_seed, bind, lift, modify, read. destruct (inc_check _ inc) as [[]|e1]; [|now intros [= <- _]].
    destruct (pcg32_from_seq _ _ _ _ _); [discriminate|]. now intros [= <- _].
  Qed.
  Theorem C79_pcg32_new : forall cyf m q z, (0 <= z < 2 ^ 64)%Z -> init_mode modes_one false m = Ok false ->
    pcg32_py_new Sq seq_words cyf m q (IInt z) = Ok (PO32 q (pcg32_srandom (nth 0 (seq_words q 2) 0) (Z.to_N z))).
  Proof. intros cyf m q z H M. unfold pcg32_py_new. rewrite M. cbn [obind]. now rewrite C79_pcg32_seed_inc. Qed.
  (* "The default is 0": it is a word of the seed sequence *)
  Theorem C79_pcg32_default_inc_refuted : forall cyf q, wf 64 (nth 0 (seq_words q 2) 0) -> wf 64 (nth 1 (seq_words q 2) 0) ->
    (pcg32_py_new Sq seq_words cyf MAbsent q INone = pcg32_py_new Sq seq_words cyf MAbsent q (IInt 0) <-> nth 1 (seq_words q 2) 0 mod 2 ^ 63 = 0).
  Proof.
    intros cyf q W0 W1. rewrite (C79_pcg32_new cyf MAbsent q 0) by (reflexivity || (split; [reflexivity|now compute])).
    unfold pcg32_py_new. cbn [init_mode obind]. rewrite C79_pcg32_seed_default. change (Z.to_N 0) with 0.
    pose proof (pcg32_srandom_inj _ _ _ _ W0 W0 W1 (wf_0 64)) as [A B]. split.
    - intros X. apply A. exact (f_equal (fun r => match r with Ok o => po32_st o | Raise _ => P32 0 0 end) X).
    - intros X. rewrite B; [reflexivity|]. now split.
  Qed.
End Pcg32.
Example C79_pcg32_case : exists o, pcg32_py_new N seq1 false MAbsent 7 (IInt 5) = Ok o /\ p32_inc (po32_st o) = 11 /\ nth 1 (seq1 7 2) 0 mod 2 ^ 63 <> 0.
Proof. eexists. split; [reflexivity|split; [reflexivity|vm_compute; discriminate]]. Qed.

(* ------------------------------------------------------- C79: inc, LCG128Mix *)
Section LcgMix.
  Context (Sq : Type) (seq_words : Sq -> N -> list N).
  Notation py_seed := (lcg_py_seed Sq seq_words).
  Theorem C79_lcg_seed_inc : forall q z (o : lcgo Sq), (0 <= z < 2 ^ 128)%Z ->
    py_seed q (IInt z) o = (LO q (lcg_seed (pair128 (seq_words q 2) 0) (Z.to_N z) (lo_st o)), Ok tt).
  Proof. intros q z [q0 s] H. unfold lcg_py_seed, bind, lift, modify, read. cbn [lo_st lo_seq]. unfold lcg_from_seq. cbn [inc_int obind]. now rewrite np_u128_in. Qed.
  Theorem C79_lcg_seed_default : forall q (o : lcgo Sq),
    py_seed q INone o = (LO q (lcg_seed (pair128 (seq_words q 4) 0) (pair128 (seq_words q 4) 2) (lo_st o)), Ok tt).
  Proof. now intros q [q0 s]. Qed.
  (* outside the range: an exception, the state stays *)
  Theorem C79_lcg_seed_rejects : forall q z (o : lcgo Sq), (z < 0 \/ 2 ^ 128 <= z)%Z -> py_seed q (IInt z) o = (LO q (lo_st o), Raise OverflowError).
  Proof. intros q z [q0 s] H. unfold lcg_py_seed, bind, lift, modify, read. cbn [lo_st lo_seq]. unfold lcg_from_seq. cbn [inc_int obind]. now rewrite np_u128_out. Qed.
  Theorem C79_lcg_seed_raises_state : forall q inc (o o' : lcgo Sq) e, py_seed q inc o = (o', Raise e) -> lo_st o' = lo_st o.
  Proof. intros q inc [q0 s] o' e. unfold lcg_py_seed, bind, lift, modify, read. cbn [lo_st lo_seq]. destruct (lcg_from_seq _ _ _ _ _); [discriminate|]. now intros [= <- _]. Qed.
  (* what is not an integer is accepted and cut off; PCG64 and PCG32 reject it *)
  Theorem C79_lcg_inc_not_integer_refuted : forall q n d (o : lcgo Sq), (0 <= n < 2 ^ 128 * Zpos d)%Z -> (n mod Zpos d <> 0)%Z ->
    py_seed q (IFloat n d) o = py_seed q (IInt (n / Zpos d)) o /\ snd (py_seed q (IFloat n d) o) = Ok tt /\ inc_check (2 ^ 128) (IFloat n d) = Raise ValueError.
  Proof.
    intros q n d o H R. assert (E : Z.quot n (Zpos d) = (n / Zpos d)%Z) by (apply Z.quot_div_nonneg; [apply H|reflexivity]).
    assert (S : py_seed q (IFloat n d) o = py_seed q (IInt (n / Zpos d)) o). { unfold lcg_py_seed, lcg_from_seq. cbn [inc_int]. now rewrite E. }
    split; [exact S|split].
    - rewrite S, C79_lcg_seed_inc; [reflexivity|]. split; [apply Z.div_pos; [apply H|reflexivity]|]. apply Z.div_lt_upper_bound; [reflexivity|]. rewrite Z.mul_comm. apply H.
    - unfold inc_check. rewrite E. replace (n / Zpos d * Zpos d =? n)%Z with false; [now rewrite orb_true_r|]. symmetry. apply Z.eqb_neq.
      intros X. apply R. pose proof (Z.div_mod n (Zpos d) ltac:(discriminate)) as D. rewrite Z.mul_comm in X. rewrite X in D. apply (Z.add_reg_l n). rewrite <- D. now rewrite Z.add_0_r.
  Qed.
  (* the constructor accepts exactly odd multipliers in range, a bool for post and a
     known or well-typed output function (given a good inc) *)
  Theorem C79_lcg_new_accepted : forall q m out dm post, (exists o, lcg_py_new Sq seq_words q INone m out dm post = Ok o) <->
    ((exists f, out = OFun true f) \/ exists s, out = OText s /\ In (lower s) out_names)
    /\ (0 < m < 2 ^ 128)%Z /\ Z.odd m = true /\ (0 < dm < 2 ^ 64)%Z /\ Z.odd dm = true /\ exists b, post = Some b.
  Proof.
    intros q m out dm post. unfold lcg_py_new.
    set (r := match out with OText s => _ | OFun true f => _ | _ => _ end).
    assert (R : (exists x, r = Ok x) <-> (exists f, out = OFun true f) \/ exists s, out = OText s /\ In (lower s) out_names).
    { subst r. destruct out as [s|[] f|].
      - split.
        + intros [x E]. right. exists s. split; [reflexivity|]. unfold out_lookup in E. unfold out_names.
          repeat (destruct (String.eqb (lower s) _) eqn:Y in E; [apply String.eqb_eq in Y; rewrite Y; cbn; tauto|clear Y]). discriminate E.
        + intros [[f X]|(t & X & I)]; [discriminate X|]. injection X as <-. unfold out_names in I. cbn [In] in I.
          repeat (destruct I as [<-|I]; [vm_compute; eexists; reflexivity|]). contradiction.
      - split; [intros _; left; now exists f|intros _; now exists (inr f)].
      - split; [intros [x E]; discriminate E|]. intros [[g X]|(t & X & I)]; discriminate X.
      - split; [intros [x E]; discriminate E|]. intros [[g X]|(t & X & I)]; discriminate X. }
    rewrite <- R. clearbody r. destruct r as [x|e]; [|split; [intros [o E]; discriminate E|intros [[x E] _]; discriminate E]]. cbn [obind].
    assert (B : forall z b, negb ((0 <? z) && (z <? b))%Z || negb (Z.odd z) = false <-> (0 < z < b)%Z /\ Z.odd z = true).
    { intros z b. rewrite orb_false_iff, !negb_false_iff, andb_true_iff, Z.ltb_lt, Z.ltb_lt. tauto. }
    pose proof (B m (2 ^ 128)%Z) as Bm. pose proof (B dm (2 ^ 64)%Z) as Bd. clear B.
    destruct (negb ((0 <? m) && (m <? 2 ^ 128))%Z || negb (Z.odd m)).
    { split; [intros [o E]; discriminate E|]. intros (_ & M & O & _). now discriminate (proj2 Bm (conj M O)). }
    destruct (negb ((0 <? dm) && (dm <? 2 ^ 64))%Z || negb (Z.odd dm)).
    { split; [intros [o E]; discriminate E|]. intros (_ & _ & _ & M & O & _). now discriminate (proj2 Bd (conj M O)). }
    destruct (proj1 Bm eq_refl) as [M O]. destruct (proj1 Bd eq_refl) as [M' O'].
    destruct post as [b|]; [|split; [intros [o E]; discriminate E|intros (_ & _ & _ & _ & _ & b & E); discriminate E]].
    split; [|intros _].
    - intros _. split; [now exists x|]. split; [exact M|]. split; [exact O|]. split; [exact M'|]. split; [exact O'|]. now exists b.
    - destruct x as [i|f]; rewrite C79_lcg_seed_default; eexists; reflexivity.
  Qed.
End LcgMix.
Example C79_lcg_case : exists o, lcg_py_new N seq1 7 (IFloat 7 2) 5 (OText "Murmur3") 3 (Some true) = Ok o /\ l_inc (core (lb (lo_st o))) = 7.
Proof. eexists. split; reflexivity. Qed.

(* ------------------------------------------------------------- C79: MT19937 *)
Section Mt.
  Context (Sq : Type) (words32 : Sq -> N -> list N).
  Notation py_seed := (mt_py_seed Sq words32).
  (* seeding uses 624 words of the seed sequence, in both modes *)
  Theorem C79_mt19937_seed : forall numpy mode q o, mt_py_new Sq words32 numpy mode q = Ok o ->
    mo_seq o = q /\ mo_st o = (if mo_numpy o then mt_seed_numpy (words32 q 624) else mt_init_by_array (words32 q 624)).
  Proof.
    intros numpy mode q o. unfold mt_py_new. destruct (init_mode modes_two numpy mode) as [b|e]; cbn [obind]; [|discriminate]. intros H. injection H as <-. split; reflexivity.
  Qed.
  (* the two ways to seed never give the same generator *)
  Theorem C79_mt19937_modes_differ : forall q s q0, py_seed q (MTO q0 true s) <> py_seed q (MTO q0 false s) /\
    mo_st (py_seed q (MTO q0 true s)) <> mo_st (py_seed q (MTO q0 false s)).
  Proof.
    intros q s q0. assert (D : mo_st (py_seed q (MTO q0 true s)) <> mo_st (py_seed q (MTO q0 false s))).
    { intros X. pose proof (f_equal mt_pos X) as P. unfold mt_py_seed in P. cbn [mo_st mo_numpy] in P. unfold mt_seed_numpy, mt_seed, mt_init_by_array in P.
      destruct (mt_loop1 _ _ _ _ _) as [k i]. cbn [mt_pos] in P. discriminate P. }
    split; [|exact D]. intros X. apply D. now rewrite X.
  Qed.
  (* jumped() keeps the mode, so reseeding gives what reseeding the original gives *)
  Theorem C79_mt19937_jumped_reseed : forall jump (o j : mto Sq) q, kok (mt_key (mo_st o)) -> (- 2 ^ 31 <= mt_pos (mo_st o) < 2 ^ 31)%Z ->
    mt_py_jumped Sq words32 jump o = Ok (Some j) -> jump (mo_st o) = Some (mo_st j) /\ mo_seq j = mo_seq o /\ py_seed q j = py_seed q o.
  Proof.
    intros jump [q0 n s] j q K P. unfold mt_py_jumped. cbn [mo_st mo_numpy mo_seq] in *. unfold mt_py_new at 1. cbn [init_mode obind].
    rewrite (mt_set_get s _ K P). destruct (jump s) as [t|]; [|discriminate]. intros X. injection X as <-. now repeat split.
  Qed.
  (* an unpickled ExtendedGenerator has the state but not the mode: the same call
     to seed gives another stream *)
  Theorem C79_mt19937_unpickled_refuted : forall q0 (o u : mto Sq), kok (mt_key (mo_st o)) -> (- 2 ^ 31 <= mt_pos (mo_st o) < 2 ^ 31)%Z -> mo_numpy o = true ->
    mt_py_unpickled Sq words32 q0 o = Ok u -> mo_st u = mo_st o /\ forall q, mo_st (py_seed q u) <> mo_st (py_seed q o).
  Proof.
    intros q0 [qo n s] u K P N. unfold mt_py_unpickled. cbn [mo_st mo_numpy mo_seq] in *. subst n. unfold mt_py_new. cbn [init_mode obind].
    rewrite (mt_set_get s _ K P). intros X. injection X as <-. cbn [mo_st]. split; [reflexivity|].
    intros q X. apply (proj2 (C79_mt19937_modes_differ q s qo)). symmetry. exact X.
  Qed.
End Mt.
Lemma kokb l : (N.of_nat (length l) =? 624) && forallb (fun x => x <? 2 ^ 32) l = true -> kok l.
Proof.
  intros H. apply andb_true_iff in H as [A B]. apply N.eqb_eq in A. split; [clear - A; lia|]. apply Forall_forall. intros x I. rewrite forallb_forall in B. apply N.ltb_lt. now apply B.
Qed.
Example C79_mt19937_case : exists o, mt_py_new N seq1 true MAbsent 3 = Ok o /\ mo_numpy o = true /\ kok (mt_key (mo_st o)) /\ mt_pos (mo_st o) = 623%Z.
Proof.
  exists (MTO 3 true (mt_seed_numpy (seq1 3 624))). split; [reflexivity|]. split; [reflexivity|]. split; [|reflexivity].
  apply kokb. vm_compute. reflexivity.
Qed.

(* ------------------------------------------------------------------------ C80 *)
(* a tuple with the layout of numpy.random.get_state() is the dictionary with its
   second and third element; the two last elements (has_gauss, cached_gaussian)
   are not used *)
Theorem C80_mt19937_tuple : forall key pos a b s,
  mt_set_any (MTuple [PStr "MT19937"; key; pos]) s = mt_setst (PDict [("bit_generator", PStr "MT19937"); ("state", PDict [("key", key); ("pos", pos)])]%string) s
  /\ mt_set_any (MTuple [PStr "MT19937"; key; pos; a; b]) s = mt_set_any (MTuple [PStr "MT19937"; key; pos]) s.
Proof. now intros. Qed.
(* so the tuple of any legal state installs exactly that state *)
Theorem C80_mt19937_tuple_restores : forall k p a b t, length k = 624%nat -> Forall (fun x => x < 2 ^ 32) k -> (- 2 ^ 31 <= p < 2 ^ 31)%Z ->
  mt_set_any (MTuple [PStr "MT19937"; PArr 32 k; PInt p; a; b]) t = (MT k p, Ok tt).
Proof.
  intros k p a b t L F P. rewrite (proj2 (C80_mt19937_tuple _ _ a b t)), (proj1 (C80_mt19937_tuple _ _ a b t)).
  assert (K : kok (mt_key (MT k p))) by (split; [cbn [mt_key]; clear - L; lia|exact F]).
  rewrite <- (mt_set_get (MT k p) t K P). reflexivity.
Qed.
(* the tuples accepted have one of these two layouts *)
Theorem C80_mt19937_tuple_layout : forall l t t', mt_set_any (MTuple l) t = (t', Ok tt) ->
  exists key pos, l = [PStr "MT19937"; key; pos] \/ exists a b, l = [PStr "MT19937"; key; pos; a; b].
Proof.
  intros l t t'. cbn [mt_set_any]. unfold bind at 1, lift at 1. destruct (mt_legacy l) as [d|e] eqn:E; [|discriminate]. intros _.
  unfold mt_legacy in E. destruct l as [|[ | x | | | | | ] r]; try discriminate E. destruct (String.eqb x "MT19937") eqn:X; [|discriminate E]. apply String.eqb_eq in X. subst x. cbn [negb] in E.
  destruct r as [|key [|pos [|a [|b [|c r]]]]]; try discriminate E; exists key, pos; [now left|right; now exists a, b].
Qed.
(* every other tuple is refused and the state stays as it is; all but the empty one
   with ValueError *)
Theorem C80_mt19937_tuple_refused : forall l t, (forall d, mt_legacy l <> Ok d) ->
  mt_set_any (MTuple l) t = (t, Raise (match l with [] => IndexError | _ => ValueError end)).
Proof.
  intros l t H. cbn [mt_set_any]. unfold bind, lift. destruct (mt_legacy l) as [d|e] eqn:E; [now destruct (H d)|]. f_equal. f_equal.
  unfold mt_legacy in E. destruct l as [|[ | x | | | | | ] r]; try congruence. destruct (negb _); [congruence|].
  destruct r as [|key [|pos [|a [|b [|c r]]]]]; congruence.
Qed.
Theorem C80_mt19937_empty_tuple_refuted : forall t, mt_set_any (MTuple []) t = (t, Raise IndexError).
Proof. reflexivity. Qed.
(* the key is stored before the position is converted: a bad position leaves the
   new key with the old position *)
Theorem C80_mt19937_tuple_atomic_refuted : forall k p t, length k = 624%nat -> Forall (fun x => x < 2 ^ 32) k -> (2 ^ 31 <= p)%Z ->
  mt_set_any (MTuple [PStr "MT19937"; PArr 32 k; PInt p]) t = (MT k (mt_pos t), Raise OverflowError).
Proof.
  intros k p [k' p'] L F P. cbn [mt_set_any mt_legacy negb String.eqb]. unfold bind at 1, lift at 1. change (mt_legacy _) with (Ok (PDict [("bit_generator", PStr "MT19937"); ("state", PDict [("key", PArr 32 k); ("pos", PInt p)])]%string)). cbv iota.
  assert (M : N.of_nat (length k) = 624) by (clear - L; lia). unfold mt_setst, bind, modify, lift. cbn -[check_arr to_cint]. rewrite check_arr_ok by assumption.
  cbn [mt_key mt_pos]. unfold to_cint. replace ((- 2 ^ 31 <=? p) && (p <? 2 ^ 31))%Z with false; [reflexivity|]. symmetry. apply andb_false_iff. right. now apply Z.ltb_ge.
Qed.
Example C80_case : length (repeat 5 624) = 624%nat /\ Forall (fun x => x < 2 ^ 32) (repeat 5 624) /\ (forall d, mt_legacy [PStr "MT19937"; PNone] <> Ok d).
Proof. split; [apply repeat_length|]. split; [|discriminate]. apply Forall_forall. intros x I. apply repeat_spec in I. now subst x. Qed.

Print Assumptions C79_mode_accepted.
Print Assumptions C79_mode_error.
Print Assumptions C79_mode_result.
Print Assumptions C79_mode_one.
Print Assumptions C79_mode_none_refuted.
Print Assumptions C79_variant_documented.
Print Assumptions C79_variant_numbers.
Print Assumptions C79_variant_negative_refuted.
Print Assumptions C79_variant_case.
Print Assumptions C79_pcg64_seed_inc.
Print Assumptions C79_pcg64_seed_default.
Print Assumptions C79_pcg64_numpy_is_default.
Print Assumptions C79_pcg64_seed_rejects.
Print Assumptions C79_pcg64_inc_bound_refuted.
Print Assumptions C79_pcg64_inc_without_seed_refuted.
Print Assumptions C79_pcg64_seed_raises_state.
Print Assumptions C79_pcg64_new.
Print Assumptions C79_pcg64_default_inc_refuted.
Print Assumptions C79_dxsm_new.
Print Assumptions C79_pcg64_numpy_new.
Print Assumptions C79_pcg64_numpy_alias_refuted.
Print Assumptions C79_pcg64_new_modes.
Print Assumptions C79_pcg64_seed_modes.
Print Assumptions C79_pcg64_jumped.
Print Assumptions C79_pcg64_jumped_reseed.
Print Assumptions C79_pcg64_jumped_refuted.
Print Assumptions C79_pcg64_state_variant.
Print Assumptions C79_pcg32_seed_inc.
Print Assumptions C79_pcg32_seed_default.
Print Assumptions C79_pcg32_seed_rejects.
Print Assumptions C79_pcg32_inc_bound_refuted.
Print Assumptions C79_pcg32_seed_raises_state.
Print Assumptions C79_pcg32_new.
Print Assumptions C79_pcg32_default_inc_refuted.
Print Assumptions C79_lcg_seed_inc.
Print Assumptions C79_lcg_seed_default.
Print Assumptions C79_lcg_seed_rejects.
Print Assumptions C79_lcg_seed_raises_state.
Print Assumptions C79_lcg_inc_not_integer_refuted.
Print Assumptions C79_lcg_new_accepted.
Print Assumptions C79_mt19937_seed.
Print Assumptions C79_mt19937_modes_differ.
Print Assumptions C79_mt19937_jumped_reseed.
Print Assumptions C79_mt19937_unpickled_refuted.
Print Assumptions C80_mt19937_tuple.
Print Assumptions C80_mt19937_tuple_restores.
Print Assumptions C80_mt19937_tuple_layout.
Print Assumptions C80_mt19937_tuple_refused.
Print Assumptions C80_mt19937_empty_tuple_refuted.
Print Assumptions C80_mt19937_tuple_atomic_refuted.
