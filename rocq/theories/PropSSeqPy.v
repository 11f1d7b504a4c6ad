(* SeedSequence objects as seen from Python.

   init lim rb entropy key size children is SeedSequence(entropy, spawn_key=key,
   pool_size=size, n_children_spawned=children); rb stands for secrets.randbits and
   lim for the limit on decimal digits in int(). dec and hex write digits as a
   string (Coq's standard decimal and hexadecimal numbers). *)
From Verif Require Import Word Arr SeedSeq SeedSeqFacts SeedSpawn SSeqPy SSeqPyLem PropSeedSeq.
From Verif Require Py.
From Coq Require Import String Ascii Decimal DecimalNat DecimalN Hexadecimal HexadecimalN ZifyBool ZifyNat ZifyN.
Notation length := List.length.
Open Scope N_scope.
Ltac Zify.zify_post_hook ::= idtac.

(* ---------------------------------------------------------------- what is accepted *)
(* a string of decimal digits means the integer it writes, with any number of
   leading zeros *)
Theorem C86_decimal_digits : forall lim d, d <> Decimal.Nil -> lim = 0 \/ N.of_nat (Decimal.nb_digits d) <= lim ->
  vcoerce lim (VStr (dec d)) = vcoerce lim (VInt (Z.of_N (N.of_uint d))).
Proof.
  intros lim d H L. cbn [vcoerce].
  assert (E : str_int lim (dec d) = int10 lim (dec d)).
  { destruct d as [|d|d|d|d|d|d|d|d|d|d]; [now elim H|try reflexivity..]. destruct d; reflexivity. }
  rewrite E, (int10_dec lim d H L). reflexivity.
Qed.
(* white space after the digits (tab to carriage return, and space) is ignored; any other character that is
   neither a digit nor an underscore is an error *)
Fixpoint blank (s : string) : Prop := match s with EmptyString => True | String c s => In (N_of_ascii c) [9; 10; 11; 12; 13; 32] /\ blank s end.
Lemma space_spec c : space c = true <-> In (N_of_ascii c) [9; 10; 11; 12; 13; 32].
Proof. unfold space. cbn [In]. lia. Qed.
Lemma blank_all s : blank s -> all_space s = true.
Proof. induction s as [|c s IH]; cbn [blank all_space]; [reflexivity|]. intros [H B]. apply space_spec in H. now rewrite H, IH. Qed.
Lemma digits_after d : forall acc cnt c w, digit c = None -> c <> "_"%char ->
  digits 10 acc cnt false (dec d ++ String c w) = if all_space (String c w) then Some (dval acc d, cnt + N.of_nat (Decimal.nb_digits d)) else None.
Proof.
  induction d; intros acc cnt c w H U;
    [cbn [DecimalString.NilEmpty.string_of_uint append digits dval Decimal.nb_digits]; rewrite H; destruct (Ascii.eqb_spec c "_"); [contradiction|]; now rewrite N.add_0_r
    | cbn [DecimalString.NilEmpty.string_of_uint append]; cbn [digits];
      match goal with |- context [digit ?x] => let v := eval vm_compute in (digit x) in change (digit x) with v end; cbv iota;
      match goal with |- context [?a <? 10] => change (a <? 10) with true end; cbv iota; rewrite IHd by assumption; cbn [dval Decimal.nb_digits];
      destruct (all_space (String c w)); [|reflexivity]; f_equal; f_equal; [f_equal; lia | lia] ..].
Qed.
Theorem C86_spaces : forall lim d c w, d <> Decimal.Nil -> lim = 0 \/ N.of_nat (Decimal.nb_digits d) <= lim -> digit c = None -> c <> "_"%char ->
  (blank (String c w) -> vcoerce lim (VStr (dec d ++ String c w)) = vcoerce lim (VInt (Z.of_N (N.of_uint d)))) /\
  (~ In (N_of_ascii c) [9; 10; 11; 12; 13; 32] -> vcoerce lim (VStr (dec d ++ String c w)) = Raise ValueError).
Proof.
  intros lim d c w H L D U. cbn [vcoerce].
  assert (E : str_int lim (dec d ++ String c w) = int10 lim (dec d ++ String c w)).
  { assert (X : c <> "x"%char) by (intros ->; vm_compute in D; discriminate).
    destruct d as [|d|d|d|d|d|d|d|d|d|d]; [now elim H|try reflexivity..]. destruct d; try reflexivity. cbn [DecimalString.NilEmpty.string_of_uint append].
    unfold str_int. destruct c as [[|] [|] [|] [|] [|] [|] [|] [|]]; try reflexivity. now elim X. }
  rewrite E. unfold int10.
  assert (T : forall cnt acc, digits 10 acc cnt true (dec d ++ String c w) = digits 10 acc cnt false (dec d ++ String c w)) by (intros; destruct d; [now elim H | reflexivity ..]).
  rewrite T, digits_after by assumption. split; intros B.
  - rewrite (blank_all _ B), N.add_0_l. replace (negb (lim =? 0) && (lim <? N.of_nat (Decimal.nb_digits d))) with false by lia. now rewrite <- dval_of_uint.
  - replace (all_space (String c w)) with false; [reflexivity|]. cbn [all_space]. destruct (space c) eqn:S; [apply space_spec in S; contradiction | reflexivity].
Qed.
(* str(n) and hex(n) give the same object state as n *)
Theorem C86_decimal : forall lim rb n k P c q, lim = 0 \/ N.of_nat (Decimal.nb_digits (N.to_uint n)) <= lim ->
  init lim rb (VInt (Z.of_N n)) k P c = Ok q ->
  init lim rb (VStr (dec (N.to_uint n))) k P c = Ok (SQ (VStr (dec (N.to_uint n))) k P (q_pool q) c).
Proof.
  intros lim rb n k P c q L H. pose proof (init_inv _ _ _ _ _ _ _ H) as (Ek & Ep & Ec & HP & HC & Ee & Ne & run & key & R & K & Q).
  rewrite Ee in R. rewrite Q. apply init_intro; try assumption; try reflexivity; try discriminate.
  rewrite C86_decimal_digits; [now rewrite DecimalN.Unsigned.of_to| |exact L].
  intros E. pose proof (DecimalN.Unsigned.of_to n) as X. rewrite E in X. cbn in X. subst n. discriminate.
Qed.
Theorem C86_hex : forall lim rb n k P c q,
  init lim rb (VInt (Z.of_N n)) k P c = Ok q ->
  let s := String "0" (String "x" (hex (N.to_hex_uint n))) in
  init lim rb (VStr s) k P c = Ok (SQ (VStr s) k P (q_pool q) c).
Proof.
  intros lim rb n k P c q H s. pose proof (init_inv _ _ _ _ _ _ _ H) as (Ek & Ep & Ec & HP & HC & Ee & Ne & run & key & R & K & Q).
  rewrite Ee in R. rewrite Q. apply init_intro; try assumption; try reflexivity; try discriminate.
  unfold s. cbn [vcoerce str_int]. rewrite int16_hex; [cbn [Py.obind]; now rewrite HexadecimalN.Unsigned.of_to|].
  intros E. pose proof (HexadecimalN.Unsigned.of_to n) as X. rewrite E in X. cbn in X. subst n. discriminate.
Qed.
(* any digits after 0x, leading zeros included *)
Theorem C86_hex_digits : forall lim d, d <> Hexadecimal.Nil ->
  vcoerce lim (VStr (String "0" (String "x" (hex d)))) = vcoerce lim (VInt (Z.of_N (N.of_hex_uint d))).
Proof. intros lim d H. cbn [vcoerce str_int]. rewrite int16_hex by exact H. reflexivity. Qed.
(* no string is given any meaning other than that of one non-negative integer *)
Theorem C86_string_is_integer : forall lim s l, vcoerce lim (VStr s) = Ok l ->
  exists z, (0 <= z)%Z /\ str_int lim s = Ok z /\ vcoerce lim (VInt z) = Ok l.
Proof.
  intros lim s l. cbn [vcoerce]. destruct (str_int lim s) as [z|] eqn:E; [|discriminate]. cbn [Py.obind]. intros H.
  exists z. split; [eapply str_int_nonneg, E|auto].
Qed.
(* strings that start with neither a digit nor 0x, the empty one among them *)
Theorem C86_unrecognized : forall lim rb k P c s, (4 <= P < 2 ^ 63)%Z -> (0 <= c < 2 ^ 32)%Z ->
  (forall ch s', s = String ch s' -> ~ 48 <= N_of_ascii ch <= 57) -> init lim rb (VStr s) k P c = Raise ValueError.
Proof.
  intros lim rb k P c s HP HC H. assert (E : str_int lim s = Raise ValueError).
  { destruct s as [|ch s]; [reflexivity|]. specialize (H ch s eq_refl).
    assert (X : str_int lim (String ch s) = if (48 <=? N_of_ascii ch) && (N_of_ascii ch <=? 57) then int10 lim (String ch s) else Raise ValueError).
    { destruct ch as [[] [] [] [] [] [] [] []]; try reflexivity. exfalso. apply H. cbn. lia. }
    rewrite X. replace ((48 <=? N_of_ascii ch) && (N_of_ascii ch <=? 57)) with false by lia. reflexivity. }
  unfold init. replace (P <? 4)%Z with false by lia. cbn [entropy_type negb]. replace (2 ^ 63 <=? P)%Z with false by lia.
  replace ((0 <=? c) && (c <? 2 ^ 32))%Z with true by lia. cbn [negb vcoerce]. rewrite E. reflexivity.
Qed.
(* entropy of a type that is not listed, and negative integers, are refused; a float
   inside a sequence too *)
Theorem C86_refused : forall lim rb k P c, (4 <= P < 2 ^ 63)%Z -> (0 <= c < 2 ^ 32)%Z ->
  (forall e, In e [VFloat; VOther] \/ (exists l, e = VSeq false l) -> init lim rb e k P c = Raise TypeError) /\
  (forall z, (z < 0)%Z -> init lim rb (VInt z) k P c = Raise ValueError) /\
  (forall a b ws, vcoerce lim (VSeq true a) = Ok ws -> init lim rb (VSeq true (a ++ VFloat :: b)) k P c = Raise TypeError).
Proof.
  intros lim rb k P c HP HC. unfold init. replace (P <? 4)%Z with false by lia. split; [|split].
  - intros e [[<-|[<-|[]]]|[l ->]]; reflexivity.
  - intros z Hz. cbn [entropy_type negb]. replace (2 ^ 63 <=? P)%Z with false by lia.
    replace ((0 <=? c) && (c <? 2 ^ 32))%Z with true by lia. cbn [negb vcoerce]. unfold words_of. now rewrite int_to_words_neg.
  - intros a b ws E. cbn [entropy_type negb]. replace (2 ^ 63 <=? P)%Z with false by lia.
    replace ((0 <=? c) && (c <? 2 ^ 32))%Z with true by lia. cbn [negb]. rewrite vcoerce_app, E. reflexivity.
Qed.
Theorem C86_small_pool : forall lim rb e k P c, (P < 4)%Z -> init lim rb e k P c = Raise ValueError.
Proof. intros lim rb e k P c H. unfold init. now replace (P <? 4)%Z with true by lia. Qed.
(* nested sequences mean the flat one *)
Theorem C86_nested : forall lim b b' l1 m l2, vcoerce lim (VSeq b (l1 ++ VSeq b' m :: l2)) = vcoerce lim (VSeq b (l1 ++ m ++ l2)).
Proof. intros lim b b' l1 m l2. rewrite !vcoerce_app, vcoerce_cons, (vcoerce_std lim b' b). reflexivity. Qed.

(* ---------------------------------------------------------------- the model of SeedSeq.v *)
(* the entropies of SeedSeq.v as Python objects *)
Fixpoint obj (x : seedval) : sv :=
  match x with SInt z => VInt z | SArr32 l => VArr32 l | SSeq l => VSeq true (map obj l) end.
Lemma vcoerce_obj lim : forall x, vcoerce lim (obj x) = match coerce x with Some l => Ok l | None => Raise ValueError end.
Proof.
  fix IH 1. intros [z|l|l]; [reflexivity|reflexivity|]. cbn [obj coerce]. induction l as [|v l IHl]; [reflexivity|].
  cbn [map fold_right]. rewrite vcoerce_cons, (IH v). destruct (coerce v) as [a|]; [|reflexivity]. cbn [Py.obind]. rewrite IHl.
  destruct (fold_right _ _ l); reflexivity.
Qed.
(* so the pool is the one that the theorems of C29 to C32 are about *)
Theorem C86_pool : forall lim rb e key P c p, (4 <= P < 2 ^ 63)%Z -> (0 <= c < 2 ^ 32)%Z ->
  ss_pool (SS e key (Z.to_nat P) c) = Some p <->
  init lim rb (obj e) (map VInt key) P c = Ok (SQ (obj e) (map VInt key) P p c).
Proof.
  intros lim rb e key P c p HP HC. unfold ss_pool. cbn [ss_pool_size ss_entropy ss_key].
  replace (Z.to_nat P <? 4)%nat with false by lia.
  assert (K : vcoerce lim (VSeq true (map VInt key)) = match coerce (SSeq (map SInt key)) with Some l => Ok l | None => Raise ValueError end).
  { rewrite <- (vcoerce_obj lim). cbn [obj]. f_equal. f_equal. rewrite map_map. reflexivity. }
  assert (T : entropy_type (obj e) = true) by (destruct e; reflexivity). assert (N : obj e <> VNone) by (destruct e; discriminate).
  split.
  - pose proof (vcoerce_obj lim e) as R. destruct (coerce e) as [run|]; [|discriminate]. destruct (coerce (SSeq _)) as [k|]; [|discriminate]. intros [= <-].
    apply init_intro; assumption.
  - intros H. pose proof (init_inv _ _ _ _ _ _ _ H) as (_ & _ & _ & _ & _ & _ & _ & run & k & R & K' & Q). cbn [q_entropy q_pool] in R, Q.
    rewrite vcoerce_obj in R. rewrite K in K'. destruct (coerce e); [|discriminate]. destruct (coerce (SSeq _)); [|discriminate].
    injection R as ->. injection K' as ->. now rewrite Q.
Qed.

(* ---------------------------------------------------------------- None *)
(* without entropy, the integer drawn is recorded and is all that is needed to make
   the sequence again; the draw is kept entirely: different draws, different words *)
Theorem C86_none : forall lim rb P q, (forall k, 0 <= rb k < 2 ^ Z.of_N k)%Z -> init lim rb VNone [] P 0 = Ok q ->
  exists n, q_entropy q = VInt (Z.of_N n) /\ n < 2 ^ (32 * Z.to_N P) /\
    (forall rb', init lim rb' (VInt (Z.of_N n)) [] P 0 = Ok q) /\
    (forall m q', m < 2 ^ (32 * Z.to_N P) -> init lim rb (VInt (Z.of_N m)) [] P 0 = Ok q' ->
       state32 (Z.to_nat P) q' = state32 (Z.to_nat P) q -> m = n).
Proof.
  intros lim rb P q R H. pose proof (init_good _ _ _ _ _ _ _ H) as G.
  pose proof (init_inv _ _ _ _ _ _ _ H) as (Ek & Ep & Ec & HP & HC & Ee & Ne & run & key & _).
  specialize (R (32 * Z.to_N P)). set (n := Z.to_N (rb (32 * Z.to_N P))).
  assert (En : q_entropy q = VInt (Z.of_N n)) by (rewrite Ee; unfold n; f_equal; lia).
  assert (Hn : n < 2 ^ (32 * Z.to_N P)). { unfold n. apply N2Z.inj_lt. rewrite Z2N.id by lia. rewrite N2Z.inj_pow. apply R. }
  assert (B : forall rb', init lim rb' (VInt (Z.of_N n)) [] P 0 = Ok q).
  { intros rb'. pose proof (good_rebuild lim rb' q G) as X. unfold rebuild, state in X. now rewrite En, Ek, Ep, Ec in X. }
  exists n. split; [exact En|]. split; [exact Hn|]. split; [exact B|].
  intros m q' Hm H' E. assert (HPn : 32 * Z.to_N P = 32 * N.of_nat (Z.to_nat P)) by lia. rewrite HPn in Hm, Hn.
  assert (Pm : forall x r, init lim rb (VInt (Z.of_N x)) [] P 0 = Ok r -> ss_pool (SS (SInt (Z.of_N x)) [] (Z.to_nat P) 0) = Some (q_pool r)).
  { intros x r Hx. apply (C86_pool lim rb (SInt (Z.of_N x)) [] P 0 (q_pool r) HP HC). cbn [obj map]. rewrite Hx. f_equal.
    pose proof (init_inv _ _ _ _ _ _ _ Hx) as (A1 & A2 & A3 & _ & _ & A4 & _). destruct r as [r1 r2 r3 r4 r5]. cbn [q_key q_size q_children q_entropy q_pool] in *. congruence. }
  apply (C29_int_entropy_states (Z.to_nat P) (Z.to_nat P) m n 0 0 (q_pool q') (q_pool q) Hm Hn (le_n _) (Pm m q' H') (Pm n q (B rb)) E).
Qed.

(* ---------------------------------------------------------------- state *)
(* all the objects a program can have: constructed, or made by spawn, or spawned from *)
Inductive made (lim : N) : sseq -> Prop :=
| made_init rb e k P c q : init lim rb e k P c = Ok q -> made lim q
| made_parent rb n q q' kids : made lim q -> spawn lim rb n q = Ok (q', kids) -> made lim q'
| made_child rb n q q' kids x : made lim q -> spawn lim rb n q = Ok (q', kids) -> In x kids -> made lim x.
Lemma made_good lim q : made lim q -> good lim q.
Proof.
  intros H. induction H as [rb0 e k P c q H|rb0 n q q' kids _ IH H|rb0 n q q' kids x _ IH H Hx].
  - eapply init_good, H.
  - eapply spawn_good in H; [apply H|exact IH].
  - eapply spawn_good in H; [|exact IH]. destruct H as [_ F]. rewrite Forall_forall in F. now apply F.
Qed.
(* SeedSequence( **q.state ) is q: the same pool, words and later children *)
Theorem C86_state : forall lim q rb, made lim q -> rebuild lim rb (state q) = Ok q.
Proof. intros lim q rb H. apply good_rebuild, made_good, H. Qed.
(* the children have the numbers that follow, no more than asked for, and depend on no
   randomness *)
Theorem C86_children : forall lim rb n q q' kids, made lim q -> (0 <= n)%Z -> spawn lim rb n q = Ok (q', kids) ->
  length kids = Z.to_nat n /\ q_children q' = (q_children q + n)%Z /\ q_pool q' = q_pool q /\
  forall j d, (j < length kids)%nat ->
    q_key (nth j kids d) = q_key q ++ [VInt (q_children q + Z.of_nat j)] /\ q_entropy (nth j kids d) = q_entropy q /\
    q_size (nth j kids d) = q_size q /\ q_children (nth j kids d) = 0%Z.
Proof.
  intros lim rb n q q' kids G Hn. apply made_good in G. destruct G as [G _]. unfold spawn, spawn_now. destruct (_ || _); cbn [negb]; [|discriminate].
  assert (O : forall l r, omap (fun j => init lim rb (q_entropy q) (q_key q ++ [VInt (q_children q + Z.of_nat j)])%Z (q_size q) 0) l = Ok r ->
    length r = length l /\ forall j d, (j < length r)%nat ->
    init lim rb (q_entropy q) (q_key q ++ [VInt (q_children q + Z.of_nat (nth j l O))])%Z (q_size q) 0 = Ok (nth j r d)).
  { induction l as [|a l IH]; intros r; cbn [omap].
    - intros [= <-]. split; [reflexivity|]. intros j d Hj. cbn in Hj. lia.
    - destruct (init _ _ _ _ _ _) as [x|] eqn:Ex; [|discriminate]. cbn [Py.obind]. destruct (omap _ _) as [r'|]; [|discriminate].
      cbn [Py.obind]. intros [= <-]. destruct (IH r' eq_refl) as [L N]. split; [cbn; now rewrite L|]. intros [|j] d Hj; [exact Ex|].
      cbn [nth]. apply N. cbn in Hj. lia. }
  destruct (omap _ _) as [r|] eqn:E; [|discriminate]. cbn [Py.obind]. destruct (_ && _); [|discriminate]. intros [= <- <-].
  destruct (O _ _ E) as [L N]. rewrite seq_length in L. split; [exact L|]. split; [reflexivity|]. split; [reflexivity|].
  intros j d Hj. specialize (N j d Hj). rewrite seq_nth in N by lia. cbn [Nat.add] in N.
  pose proof (init_inv _ _ _ _ _ _ _ N) as (A1 & A2 & A3 & _ & _ & A4 & _).
  split; [exact A1|]. split; [|split; [exact A2|exact A3]]. rewrite A4. destruct (q_entropy q) eqn:Eq; try reflexivity.
  now elim G.
Qed.
(* entropy given as a list or array is kept by reference: if the caller changes it, the
   children no longer belong to the pool, and the state no longer describes the object *)
Theorem C86_alias_refuted : exists e now q q1 kid, init 4300 (fun _ => 0%Z) e [] 4 0 = Ok q /\
  spawn_now 4300 (fun _ => 0%Z) now 1 q = Ok (q1, [kid]) /\
  (forall rb, match spawn 4300 rb 1 q with Ok (_, [x]) => q_pool x <> q_pool kid | _ => False end) /\
  (forall rb, match rebuild 4300 rb (now, q_key q, q_size q, q_children q) with Ok x => q_pool x <> q_pool q | Raise _ => False end).
Proof.
  exists (VSeq true [VInt 1; VInt 2]), (VSeq true [VInt 1; VInt 3]),
    (SQ (VSeq true [VInt 1; VInt 2]) [] 4 (mix_entropy 4 [1; 2]) 0),
    (SQ (VSeq true [VInt 1; VInt 2]) [] 4 (mix_entropy 4 [1; 2]) 1),
    (SQ (VSeq true [VInt 1; VInt 3]) [VInt 0] 4 (mix_entropy 4 [1; 3; 0; 0; 0]) 0).
  split; [vm_compute; reflexivity|]. split; [vm_compute; reflexivity|].
  split; intros rb; vm_compute; discriminate.
Qed.
(* n_children_spawned is a 32-bit attribute: other values are refused *)
Theorem C86_children_bound : forall lim rb e k P c q, init lim rb e k P c = Ok q -> (0 <= c < 2 ^ 32)%Z.
Proof. intros lim rb e k P c q H. apply (init_inv _ _ _ _ _ _ _ H). Qed.
(* SeedlessSeedSequence: spawn repeats the object itself and no state can be generated *)
Theorem C86_seedless : forall self n, Forall (eq self) (seedless_spawn self n) /\ length (seedless_spawn self n) = Z.to_nat n /\
  forall k, seedless_state k = Raise NotImplementedErr.
Proof.
  intros self n. unfold seedless_spawn. split; [|split; [apply repeat_length|reflexivity]].
  apply Forall_forall. intros x H. symmetry. eapply repeat_spec, H.
Qed.
Example C86_case :
  vcoerce 4300 (VStr "0012") = Ok [12] /\ vcoerce 4300 (VStr "0x1_0000_000F") = Ok [15; 1] /\ vcoerce 4300 (VStr "1_0 ") = Ok [10] /\
  vcoerce 4300 (VStr "12ab") = Raise ValueError /\ vcoerce 4300 (VStr "0x") = Raise ValueError /\ vcoerce 4300 (VStr "0X1F") = Raise ValueError /\
  vcoerce 4300 (VStr "-1") = Raise ValueError /\ vcoerce 4300 (VStr "1__0") = Raise ValueError /\
  vcoerce 4300 (VSeq true [VInt 12345; VStr "67890"; VSeq true [VInt 4294967296]]) = Ok [12345; 67890; 0; 1] /\
  dec (N.to_uint 12345) = "12345"%string /\ hex (N.to_hex_uint 48879) = "beef"%string /\
  vcoerce 2 (VStr "123") = Raise ValueError /\ vcoerce 0 (VStr "123") = Ok [123] /\
  match init 4300 (fun _ => 7%Z) VNone [] 4 0 with Ok q => spawn 4300 (fun _ => 0%Z) 2 q <> Raise OverflowError /\ q_entropy q = VInt 7 | Raise _ => False end.
Proof. vm_compute. repeat split; discriminate. Qed.

Print Assumptions C86_decimal_digits.
Print Assumptions C86_spaces.
Print Assumptions C86_decimal.
Print Assumptions C86_hex.
Print Assumptions C86_hex_digits.
Print Assumptions C86_string_is_integer.
Print Assumptions C86_unrecognized.
Print Assumptions C86_refused.
Print Assumptions C86_small_pool.
Print Assumptions C86_nested.
Print Assumptions C86_pool.
Print Assumptions C86_none.
Print Assumptions C86_state.
Print Assumptions C86_children.
Print Assumptions C86_alias_refuted.
Print Assumptions C86_children_bound.
Print Assumptions C86_seedless.
