(* C90: the parameters of the constructors of the counter-based classes. *)
From Verif Require Import Word MultiWord Common Buffer32 Blocks Py Convert Ctr CtrPy CtrFacts LaneCtr Aes AesPy Speck ChaCha SeedPy PcgInit CtorPy PropCtr PropLane PropChaCha PropSeedPy.
From Coq Require Import String ZifyBool ZifyNat ZifyN.
Open Scope N_scope.
Ltac Zify.zify_post_hook ::= idtac.

(* the value of a number argument, when it is an integer *)
Definition is_int (a : par) (z : Z) : Prop :=
  match a with QInt x => x = z | QRat n d => (n = z * Zpos d)%Z | _ => False end.
Definition is_float (a : par) : Prop := match a with QRat _ _ | QNan | QInf _ => True | _ => False end.

Lemma cint_in z : (- 2 ^ 31 <= z < 2 ^ 31)%Z -> to_cint (PInt z) = Ok z.
Proof. intros H. unfold to_cint. replace ((- 2 ^ 31 <=? z) && (z <? 2 ^ 31))%Z with true by lia. reflexivity. Qed.
Lemma cint_ok_inv z x : to_cint (PInt z) = Ok x -> x = z /\ (- 2 ^ 31 <= z < 2 ^ 31)%Z.
Proof. unfold to_cint. destruct ((- 2 ^ 31 <=? z) && (z <? 2 ^ 31))%Z eqn:E; [|discriminate]. intros [= <-]. split; [reflexivity|]. lia. Qed.
Lemma quot_mul z d : Z.quot (z * Zpos d) (Zpos d) = z.
Proof. apply Z.quot_mul. discriminate. Qed.

(* rounds of SPECK128: accepted exactly when equal to an integer from 1 to 34, of whatever type *)
Theorem C90_speck_rounds : forall a r, speck_rounds a = Ok r <-> is_int a r /\ (1 <= r <= 34)%Z.
Proof.
  intros a r. destruct a as [z|n d| |s|]; cbn [speck_rounds is_int]; try (split; [discriminate|intros [[] _]]).
  - destruct ((z <=? 0) || (34 <? z))%Z eqn:E; split; try discriminate; [intros [-> H]; lia|intros [= <-]; lia|intros [-> H]; reflexivity].
  - destruct ((n <=? 0) || (34 * Zpos d <? n) || negb (Z.quot n (Zpos d) * Zpos d =? n))%Z eqn:E; split; try discriminate.
    + intros [-> H]. rewrite quot_mul in E. nia.
    + intros [= <-]. apply orb_false_iff in E. destruct E as [E1 E2]. apply negb_false_iff, Z.eqb_eq in E2. split; [lia|]. revert E1 E2. generalize (Z.quot n (Zpos d)). intros q E1 <-. nia.
    + intros [-> H]. now rewrite quot_mul.
Qed.
(* rounds of ChaCha: a positive even integer that fits the C int; a float only where Cython converts it *)
Theorem C90_chacha_rounds : forall cyf a r, chacha_rounds cyf a = Ok r <-> is_int a r /\ (2 <= r < 2 ^ 31)%Z /\ Z.even r = true /\ (is_float a -> cyf = true).
Proof.
  intros cyf a r. destruct a as [z|n d| |s|]; cbn [chacha_rounds is_int is_float]; try (split; [discriminate|intros [[] _]]).
  - destruct (negb (z mod 2 =? 0) || (z <=? 0))%Z eqn:E.
    + split; [discriminate|]. intros [-> [H [V _]]]. apply orb_true_iff in E. destruct E as [E|E]; [|lia]. rewrite Zmod_even, V in E. discriminate E.
    + apply orb_false_iff in E. destruct E as [E1 E2]. apply negb_false_iff in E1. rewrite Zmod_even in E1. cbn [par_cint]. split.
      * intros H. apply cint_ok_inv in H. destruct H as [-> H]. split; [reflexivity|]. destruct (Z.even z) eqn:V; [|discriminate E1]. split; [|split; [reflexivity|intros []]].
        split; [|apply H]. destruct (Z.eq_dec z 1) as [->|]; [discriminate V|lia].
      * intros [-> [H _]]. apply cint_in. lia.
  - destruct (negb (n mod (2 * Zpos d) =? 0) || (n <=? 0))%Z eqn:E.
    + split; [discriminate|]. intros [-> [H [V _]]]. apply orb_true_iff in E. destruct E as [E|E]; [|nia].
      apply Z.even_spec in V. destruct V as [m ->]. replace (2 * m * Zpos d)%Z with (m * (2 * Zpos d))%Z in E by lia. rewrite Z.mod_mul in E by discriminate. discriminate E.
    + apply orb_false_iff in E. destruct E as [E1 E2]. apply negb_false_iff, Z.eqb_eq in E1. apply Z.mod_divide in E1; [|discriminate]. destruct E1 as [m ->].
      replace (m * (2 * Zpos d))%Z with (2 * m * Zpos d)%Z in * by lia. cbn [par_cint]. rewrite quot_mul. split.
      * destruct cyf; [|discriminate]. intros H. apply cint_ok_inv in H. destruct H as [-> H]. split; [reflexivity|]. split; [nia|]. split; [|reflexivity]. rewrite Z.even_mul. reflexivity.
      * intros [I [H [_ F]]]. rewrite (F Logic.I). apply Z.mul_reg_r in I; [|discriminate]. rewrite <- I in *. apply cint_in. lia.
Qed.
(* number and width of Philox and ThreeFry: 2 or 4, 32 or 64 *)
Lemma par_eqb_spec a z : par_eqb a z = true <-> is_int a z.
Proof. destruct a; cbn [par_eqb is_int]; try apply Z.eqb_eq; split; (discriminate || contradiction). Qed.
Lemma par_cint_int cyf a z x : is_int a z -> (- 2 ^ 31 <= z < 2 ^ 31)%Z -> (par_cint cyf a = Ok x <-> x = z /\ (is_float a -> cyf = true)).
Proof.
  destruct a as [y|n d| |s|]; cbn [is_int par_cint is_float]; try contradiction.
  - intros -> H. rewrite (cint_in z H). split; [intros [= <-]; auto|intros [-> _]; reflexivity].
  - intros -> H. rewrite quot_mul, (cint_in z H). destruct cyf; split; try discriminate; [intros [= <-]; auto|intros [-> _]; reflexivity|intros [_ F]; specialize (F I); discriminate F].
Qed.
Theorem C90_variant : forall cyf number width n w, ctr_variant cyf number width = Ok (n, w) <->
  is_int number n /\ is_int width w /\ In (Z.to_N n, Z.to_N w) variants /\ (0 < n /\ 0 < w)%Z /\ (is_float number \/ is_float width -> cyf = true).
Proof.
  intros cyf number width n w. unfold ctr_variant.
  assert (A : forall a x y, par_eqb a x || par_eqb a y = true <-> is_int a x \/ is_int a y) by (intros; now rewrite orb_true_iff, !par_eqb_spec).
  destruct (par_eqb number 2 || par_eqb number 4) eqn:E1; cbn [negb].
  2:{ split; [discriminate|]. intros (I & _ & V & P & _). rewrite <- not_true_iff_false, A in E1. exfalso. apply E1. unfold variants in V.
      destruct V as [V|[V|[V|[V|[]]]]]; injection V as V1 V2; [right|left|right|left]; [replace 4%Z with n by lia|replace 2%Z with n by lia|replace 4%Z with n by lia|replace 2%Z with n by lia]; exact I. }
  destruct (par_eqb width 32 || par_eqb width 64) eqn:E2; cbn [negb].
  2:{ split; [discriminate|]. intros (_ & I & V & P & _). rewrite <- not_true_iff_false, A in E2. exfalso. apply E2. unfold variants in V.
      destruct V as [V|[V|[V|[V|[]]]]]; injection V as V1 V2; [right|right|left|left]; [replace 64%Z with w by lia|replace 64%Z with w by lia|replace 32%Z with w by lia|replace 32%Z with w by lia]; exact I. }
  apply A in E1, E2.
  assert (U : forall a x y, is_int a x -> is_int a y -> x = y).
  { intros [z|m d| | |] x y; cbn [is_int]; try contradiction; [congruence|]. intros -> X. apply Z.mul_reg_r in X; [exact X|discriminate]. }
  assert (G : forall n0 w0, is_int number n0 -> is_int width w0 -> (n0 = 2 \/ n0 = 4)%Z -> (w0 = 32 \/ w0 = 64)%Z ->
    obind (par_cint cyf number) (fun n => obind (par_cint cyf width) (fun w => Ok (n, w))) = Ok (n, w) <->
    is_int number n /\ is_int width w /\ In (Z.to_N n, Z.to_N w) variants /\ (0 < n /\ 0 < w)%Z /\ (is_float number \/ is_float width -> cyf = true)).
  { intros n0 w0 I1 I2 H1 H2. pose proof (par_cint_int cyf number n0) as P1. pose proof (par_cint_int cyf width w0) as P2. split.
    - destruct (par_cint cyf number) as [x|] eqn:X; [|discriminate]. cbn [obind]. destruct (par_cint cyf width) as [y|] eqn:Y; [|discriminate]. cbn [obind]. intros [= <- <-].
      destruct (proj1 (P1 x I1 ltac:(lia)) eq_refl) as [-> F1]. destruct (proj1 (P2 y I2 ltac:(lia)) eq_refl) as [-> F2].
      split; [exact I1|]. split; [exact I2|]. split; [destruct H1 as [-> | ->], H2 as [-> | ->]; cbn; tauto|]. split; [lia|]. intros [F|F]; auto.
    - intros (J1 & J2 & _ & _ & F). rewrite (U _ _ _ J1 I1), (U _ _ _ J2 I2) in *. rewrite (proj2 (P1 n0 I1 ltac:(lia))), (proj2 (P2 w0 I2 ltac:(lia))) by (split; auto). reflexivity. }
  destruct E1 as [E1|E1], E2 as [E2|E2]; apply (G _ _ E1 E2); auto.
Qed.

(* --------------------------------------------------------- construction *)
Lemma obj_range bits v z : object_to_int 64 true false (Some bits) v = Some (Ok (Some z)) -> (0 <= z < 2 ^ Z.of_N bits)%Z.
Proof.
  assert (R : forall x, int_range (Some bits) x = Ok (Some z) -> (0 <= z < 2 ^ Z.of_N bits)%Z).
  { intros x. unfold int_range. destruct ((x <? 0) || (2 ^ Z.of_N bits <=? x))%Z eqn:E; [discriminate|]. intros [= <-]. revert E. generalize (2 ^ Z.of_N bits)%Z. clear. lia. }
  assert (A : forall w l, arr_value w l (Some bits) = Ok (Some z) -> (0 <= z < 2 ^ Z.of_N bits)%Z) by (intros w [|x l]; [discriminate|apply R]).
  destruct v as [|x|w l|w| |l| |]; cbn [object_to_int]; try discriminate.
  - intros [= H]. exact (R _ H).
  - destruct (_ || _); [|discriminate]. intros [= H]. exact (A _ _ H).
  - destruct (_ || _); discriminate.
  - unfold cast_seq. destruct (np_array l) as [m|m|]; try discriminate.
    + destruct (forallb _ m); [|discriminate]. intros [= H]. exact (A _ _ H).
    + destruct (forallb _ m); [|discriminate]. destruct (forallb _ m); [|discriminate]. intros [= H]. exact (A _ _ H).
Qed.
Lemma install_range k key counter kv cv : install k key counter = Some (Ok (kv, cv)) -> kv < 2 ^ key_bits k /\ cv < 2 ^ ctr_bits k.
Proof.
  unfold install. destruct (object_to_int 64 true false (Some (key_bits k)) key) as [[[z|]|]|] eqn:K; try discriminate. apply obj_range in K.
  assert (KB : Z.to_N z < 2 ^ key_bits k) by (apply N2Z.inj_lt; rewrite Z2N.id, <- pow_ZN by apply K; apply K).
  destruct (object_to_int 64 true false (Some (ctr_bits k)) counter) as [[[c|]|]|] eqn:C; try discriminate; intros [= <- <-]; (split; [exact KB|]).
  - apply obj_range in C. apply N2Z.inj_lt. rewrite Z2N.id, <- pow_ZN by apply C. apply C.
  - apply N.neq_0_lt_0, N.pow_nonzero. discriminate.
Qed.
Definition rounds_ok (k : ckind) (r : Z) : Prop :=
  match k with KSpeck => (1 <= r <= 34)%Z | KChaCha => (2 <= r < 2 ^ 31)%Z /\ Z.even r = true | _ => True end.
(* Whatever the arguments, a constructor that does not raise makes a generator of a kind that exists,
   with rounds in the class's range, a key and a counter of the kind's bits *)
Theorem C90_constructed : forall cyf x numpy_seed mode words seeded counter key k r kv cv,
  cnew_make cyf x numpy_seed mode words seeded counter key = Some (Ok (k, r, kv, cv)) ->
  kind_ok k /\ rounds_ok k r /\ kv < 2 ^ key_bits k /\ cv < 2 ^ ctr_bits k.
Proof.
  intros cyf x numpy_seed mode words seeded counter key k r kv cv. unfold cnew_make. destruct (init_mode _ _ _) as [numpy|]; [|discriminate].
  destruct (cnew_kind cyf x) as [[k0 r0]|] eqn:E; [|discriminate]. destruct (py_seed k0 numpy words seeded counter key) as [[[kv0 cv0]|]|] eqn:S; try discriminate. cbn [option_map obind fst snd].
  intros [= -> -> -> ->].
  assert (I : exists a b, install k a b = Some (Ok (kv, cv))).
  { unfold py_seed in S. destruct key; [destruct numpy|..]; try (destruct seeded; [discriminate S|]); try (eexists; eexists; exact S).
    destruct k as [| | |c n w]; try discriminate S. repeat (match type of S with match ?p with _ => _ end = _ => destruct p; try discriminate S end). eexists; eexists; exact S. }
  destruct I as (a & b & I). apply install_range in I. split; [|split; [|exact I]].
  - destruct x; cbn [cnew_kind] in E; [injection E as <- <-; exact Logic.I|destruct (speck_rounds _); [injection E as <- <-; exact Logic.I|discriminate E]|destruct (chacha_rounds _ _); [injection E as <- <-; exact Logic.I|discriminate E]|].
    destruct (ctr_variant cyf number width) as [[n w]|] eqn:V; [|discriminate E]. cbn [obind fst snd] in E. injection E as <- <-. apply C90_variant in V. apply V.
  - destruct x; cbn [cnew_kind] in E; [injection E as <- <-; exact Logic.I|destruct (speck_rounds _) as [q|] eqn:Q; [injection E as <- <-|discriminate E]|destruct (chacha_rounds _ _) as [q|] eqn:Q; [injection E as <- <-|discriminate E]|].
    + apply C90_speck_rounds in Q. apply Q.
    + apply C90_chacha_rounds in Q. split; apply Q.
    + destruct (ctr_variant cyf number width) as [[n w]|] eqn:V; [|discriminate E]. cbn [obind fst snd] in E. injection E as <- <-. exact Logic.I.
Qed.
(* and all of those are made: with a key and a counter in range, or with a seed *)
Theorem C90_made_with_key : forall cyf x k r words z c, cnew_kind cyf x = Ok (k, r) -> (0 <= z < 2 ^ Z.of_N (key_bits k))%Z -> (0 <= c < 2 ^ Z.of_N (ctr_bits k))%Z ->
  cnew_make cyf x false MAbsent words false (OInt c) (OInt z) = Some (Ok (k, r, Z.to_N z, Z.to_N c)).
Proof.
  intros cyf x k r words z c E Z C. unfold cnew_make. cbn [init_mode]. rewrite E, C76_key_with_counter by exact Z. cbn [object_to_int]. now rewrite (range_in _ c C).
Qed.
Theorem C90_made_with_seed : forall cyf x k r words seeded, cnew_kind cyf x = Ok (k, r) -> seq_ok words ->
  cnew_make cyf x false MAbsent words seeded ONone ONone = Some (Ok (k, r, seq_key k words, 0)).
Proof.
  intros cyf x k r words seeded E W. unfold cnew_make. cbn [init_mode]. rewrite E, C76_seed_without_counter; [reflexivity| |exact W].
  destruct x; cbn [cnew_kind] in E; [injection E as <- <-; exact I|destruct (speck_rounds _); [injection E as <- <-; exact I|discriminate E]|destruct (chacha_rounds _ _); [injection E as <- <-; exact I|discriminate E]|].
  destruct (ctr_variant cyf number width) as [[n w]|] eqn:V; [|discriminate E]. cbn [obind fst snd] in E. injection E as <- <-. apply C90_variant in V. apply V.
Qed.
(* the classes without a second seeding mode refuse mode="numpy"; Philox takes it with 4x64 only *)
Theorem C90_numpy_mode : forall cyf x m words seeded counter, lower m = "numpy"%string ->
  match x with
  | NCtr Philox number width => forall n w, ctr_variant cyf number width = Ok (n, w) -> seq_ok words ->
      cnew_make cyf x false (MText m) words seeded counter ONone =
      if (n =? 4)%Z && (w =? 64)%Z then Some (Ok (KCtr Philox 4 64, 0%Z, seq_key (KCtr Philox 4 64) words, 0)) else Some (Raise ValueError)
  | _ => forall key, cnew_make cyf x false (MText m) words seeded counter key = Some (Raise ValueError)
  end.
Proof.
  intros cyf x m words seeded counter M.
  destruct x as [|r|r|[] number width]; try (intros key; unfold cnew_make, init_mode; rewrite M; reflexivity).
  intros n w V W. unfold cnew_make, init_mode. rewrite M. cbn [in_names existsb modes_two String.eqb Ascii.eqb Bool.eqb orb]. cbn [cnew_kind]. rewrite V. cbn [obind fst snd].
  apply C90_variant in V. destruct V as (_ & _ & V & P & _). unfold variants in V.
  destruct V as [V|[V|[V|[V|[]]]]]; injection V as V1 V2; rewrite <- V1, <- V2; [replace n with 4%Z by lia; replace w with 64%Z by lia|replace n with 2%Z by lia; replace w with 64%Z by lia|replace n with 4%Z by lia; replace w with 32%Z by lia|replace n with 2%Z by lia; replace w with 32%Z by lia]; try reflexivity.
  cbn [Z.eqb Pos.eqb andb]. now rewrite C76_philox_numpy_counter_refuted.
Qed.
(* The numbers of a constructed generator: the cipher with that key at that counter and the following
   ones. cc_draws: one kernel (SIMD or not) chosen for each number. *)
Definition new_stream (k : ckind) (r : Z) (kv cv : N) (n : nat) : Prop :=
  match k with
  | KAes => option_map snd (aes_draws n (core (aes_seed kv cv aes_zero))) = Some (map (fun i => aes_stream (l_key (core (aes_seed kv cv aes_zero))) (2 * cv + N.of_nat i)) (seq 0 n))
  | KSpeck => option_map snd (sp_draws n (core (sp_seed kv cv (sp_zero r)))) = Some (map (fun i => sp_stream (l_key (core (sp_seed kv cv (sp_zero r)))) (2 * cv + N.of_nat i)) (seq 0 n))
  | KChaCha => forall p ps b, cc_rounds b = r -> List.length ps = n -> option_map snd (cc_draws ps (cc_seed p kv cv b)) = Some (map (fun i => cc_stream r (to_words 32 8 kv) (cv + N.of_nat i)) (seq 0 n))
  | KCtr Philox m w => option_map snd (vdraws Philox m w (N.of_nat n) (o_st (seed_key Philox (m, w) kv cv))) = Some (map (fun i => vstream Philox m w (to_words w (N.to_nat (m / 2)) kv) (m * (cv + 1) + N.of_nat i)) (seq 0 n))
  | KCtr ThreeFry m w => option_map snd (vdraws ThreeFry m w (N.of_nat n) (o_st (seed_key ThreeFry (m, w) kv cv))) = Some (map (fun i => vstream ThreeFry m w (to_words w (N.to_nat m) kv) (m * (cv + 1) + N.of_nat i)) (seq 0 n))
  end.
Theorem C90_stream : forall cyf x numpy_seed mode words seeded counter key k r kv cv n,
  cnew_make cyf x numpy_seed mode words seeded counter key = Some (Ok (k, r, kv, cv)) -> new_stream k r kv cv n.
Proof.
  intros cyf x numpy_seed mode words seeded counter key k r kv cv n H. destruct (C90_constructed _ _ _ _ _ _ _ _ _ _ _ _ H) as (K & R & _ & C). clear H.
  destruct k as [| | |c m w]; cbn [new_stream rounds_ok kind_ok ctr_bits] in *.
  - apply C05_aes_seeded_stream; [exact C|reflexivity].
  - apply C06_speck_seeded_stream; [exact C|reflexivity|]. cbn [sp_zero core l_key sk_rounds]. lia.
  - intros p ps b B L. rewrite <- B, <- L. apply C47_chacha_seeded_stream. exact C.
  - rewrite N.mul_comm in C. destruct c; rewrite <- (Nat2N.id n) at 2; [now apply C07_philox_seeded_stream|now apply C08_threefry_seeded_stream].
Qed.

Example C90_case : speck_rounds (QRat 64 2) = Ok 32%Z /\ speck_rounds (QInt 35) = Raise ValueError /\ chacha_rounds false (QInt 8) = Ok 8%Z /\ chacha_rounds false (QRat 8 1) = Raise TypeError /\
  ctr_variant true (QRat 4 2) (QInt 32) = Ok (2, 32)%Z /\ lower "NumPy" = "numpy"%string /\ seq_ok (fun n => repeat 7 (N.to_nat n)) /\
  cnew_make false (NCtr ThreeFry (QInt 2) (QInt 32)) false (MText "Sequence") (fun n => repeat 7 (N.to_nat n)) true (OInt 9) ONone = Some (Ok (KCtr ThreeFry 2 32, 0%Z, 7, 9)).
Proof.
  do 6 (split; [reflexivity|]). split; [|reflexivity].
  intros n. split; [apply repeat_length|]. apply Forall_forall. intros x X. apply repeat_spec in X. rewrite X. reflexivity.
Qed.

Print Assumptions C90_speck_rounds.
Print Assumptions C90_chacha_rounds.
Print Assumptions C90_variant.
Print Assumptions C90_constructed.
Print Assumptions C90_made_with_key.
Print Assumptions C90_made_with_seed.
Print Assumptions C90_numpy_mode.
Print Assumptions C90_stream.
