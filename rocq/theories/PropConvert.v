(* C23: random_raw. C33: integer arguments. C34: doubles. *)
From Coq Require Import QArith.
From Verif Require Import Word MultiWord Common Buffer32 Hc128Facts Py Convert Doubles Pcg PcgFacts.
From Coq Require Import String ZifyBool ZifyNat ZifyN.
Open Scope N_scope.
Ltac Zify.zify_post_hook ::= idtac.

(* -------------------------------------------------------------- C23 *)
(* n values and then m values: the values and the final state of n + m values, for
   any generator (any state type and step) *)
Theorem C23_batches :
  forall A (next : A -> A * N) n m a, (0 <= n)%Z -> (0 <= m)%Z ->
  let '(a1, r1) := random_raw next true (SzInt n) a in
  let '(a2, r2) := random_raw next true (SzInt m) a1 in
  let '(a3, r3) := random_raw next true (SzInt (n + m)) a in
  a2 = a3 /\ exists l1 l2, r1 = Ok l1 /\ r2 = Ok l2 /\ r3 = Ok (l1 ++ l2)%list /\
  Z.of_nat (List.length l1) = n /\ Z.of_nat (List.length l2) = m.
Proof.
  intros A next n m a Hn Hm. unfold random_raw, raw_count, np_size.
  rewrite !(proj2 (Z.ltb_ge _ _)) by lia. cbn beta iota zeta.
  replace (N.to_nat (Z.to_N (n + m))) with (N.to_nat (Z.to_N n) + N.to_nat (Z.to_N m))%nat by lia.
  rewrite raws_app. cbn [fst snd]. split; [reflexivity|]. do 2 eexists. split; [reflexivity|]. split; [reflexivity|]. split; [reflexivity|].
  rewrite !raws_length. lia.
Qed.
(* one value at a time *)
Theorem C23_scalar :
  forall A (next : A -> A * N) a,
  random_raw next true SzNone a = (fst (next a), Ok [snd (next a)]) /\
  random_raw next true (SzInt 1) a = random_raw next true SzNone a.
Proof. intros A next a. unfold random_raw, raw_count, np_size. cbn [Z.ltb Z.compare Z.to_N].
  change (N.to_nat 1) with 1%nat. cbn [raws]. destruct (next a). split; reflexivity.
Qed.
(* the shape only arranges the values *)
Theorem C23_shape :
  forall A (next : A -> A * N) l a, Forall (fun n => (0 <= n)%Z) l ->
  random_raw next true (SzTuple l) a = random_raw next true (SzInt (fold_right Z.mul 1 l)%Z) a.
Proof.
  intros A next l a Hl. unfold random_raw, raw_count, np_size.
  assert (E : existsb (fun n => (n <? 0)%Z) l = false) by (induction Hl as [|x l Hx Hl IH]; [reflexivity|]; cbn; rewrite IH; lia).
  assert (P : (0 <= fold_right Z.mul 1 l)%Z) by (clear E; induction Hl; cbn; [lia|nia]).
  rewrite E, (proj2 (Z.ltb_ge _ _)) by exact P. reflexivity.
Qed.
(* output=False: the same final state when size is None, an integer, or a tuple
   whose sum is its product (the one-element tuples among them) *)
Theorem C23_no_output_partial :
  forall A (next : A -> A * N) s a,
  match s with
  | SzNone => True
  | SzInt n => (0 <= n)%Z
  | SzTuple l => l <> [] /\ Forall (fun n => (0 <= n)%Z) l /\ fold_right Z.add 0%Z l = fold_right Z.mul 1%Z l
  end ->
  fst (random_raw next false s a) = fst (random_raw next true s a) /\ snd (random_raw next false s a) = Ok [].
Proof.
  intros A next s a H. destruct s as [|n|l]; unfold random_raw, raw_count, np_size.
  - split; reflexivity.
  - rewrite (proj2 (Z.ltb_ge _ _)) by exact H. split; reflexivity.
  - destruct H as (N0 & Hl & E). destruct l as [|x l]; [congruence|].
    replace (existsb (fun n => (n <? 0)%Z) (x :: l)) with false.
    2:{ clear E N0. symmetry. induction Hl as [|y m Hy Hm IH]; [reflexivity|]. cbn [existsb]. rewrite IH. lia. }
    rewrite E. split; reflexivity.
Qed.
Example C23_no_output_case :
  (let s := SzTuple [7]%Z in s <> SzNone) /\
  random_raw pcg32_next32 false (SzTuple [2; 2]%Z) (P32 1 1) = (fst (random_raw pcg32_next32 true (SzTuple [2; 2]%Z) (P32 1 1)), Ok []).
Proof. split; [discriminate|]. vm_compute. reflexivity. Qed.
(* random_raw((2,3), output=False) advances by 5 values, not 6; with output=False a
   negative size is accepted, and () is rejected *)
Theorem C23_no_output_refuted :
  exists a, fst (random_raw pcg32_next32 false (SzTuple [2; 3]%Z) a) <> fst (random_raw pcg32_next32 true (SzTuple [2; 3]%Z) a) /\
  fst (random_raw pcg32_next32 false (SzTuple [2; 3]%Z) a) = fst (random_raw pcg32_next32 true (SzInt 5) a) /\
  snd (random_raw pcg32_next32 true (SzInt (-1)) a) = Raise ValueError /\
  snd (random_raw pcg32_next32 false (SzInt (-1)) a) = Ok [] /\
  snd (random_raw pcg32_next32 true (SzTuple []) a) = Ok [snd (pcg32_next32 a)] /\
  snd (random_raw pcg32_next32 false (SzTuple []) a) = Raise TypeError.
Proof. exists (P32 1 1). repeat split; try reflexivity. vm_compute. discriminate. Qed.

(* -------------------------------------------------------------- C33 *)
(* wrap_int: the unique representative in [0, 2^bits) *)
Theorem C33_wrap_int :
  forall v bits r, wrap_int v bits = r <-> (0 <= r < 2 ^ Z.of_N bits)%Z /\ exists q, (v = r + q * 2 ^ Z.of_N bits)%Z.
Proof.
  intros v bits r. pose proof (Zpow2_pos bits) as P. rewrite wrap_int_mod. split.
  - intros <-. split; [apply Z.mod_pos_bound, P|]. exists (v / 2 ^ Z.of_N bits)%Z. rewrite (Z.div_mod v (2 ^ Z.of_N bits)) at 1 by lia. lia.
  - intros [B [q ->]]. rewrite Z.mod_add by lia. now apply Z.mod_small.
Qed.
(* an integer key or counter: accepted exactly when in range, then kept as it is *)
Theorem C33_int_argument :
  forall db s64 s32 b z, object_to_int db s64 s32 (Some b) (OInt z) =
  Some (if ((0 <=? z) && (z <? 2 ^ Z.of_N b))%Z then Ok (Some z) else Raise ValueError).
Proof.
  intros db s64 s32 b z. unfold object_to_int, int_range. destruct ((0 <=? z) && (z <? 2 ^ Z.of_N b))%Z eqn:E.
  - replace ((z <? 0) || (2 ^ Z.of_N b <=? z))%Z with false by lia. reflexivity.
  - replace ((z <? 0) || (2 ^ Z.of_N b <=? z))%Z with true by lia. reflexivity.
Qed.
(* int_to_array produces bits/size words whose value is the integer, and rejects
   the rest *)
Theorem C33_int_to_array :
  forall s k v, s = 32 \/ s = 64 ->
  match int_to_array (Some (s * N.of_nat k)) s v with
  | Ok l => (0 <= v < 2 ^ Z.of_N (s * N.of_nat k))%Z /\ List.length l = k /\ Forall (wf s) l /\ Z.of_N (lv s l) = v
  | Raise e => e = ValueError /\ ~ (0 <= v < 2 ^ Z.of_N (s * N.of_nat k))%Z
  end.
Proof.
  intros s k v Hs. destruct (Z_lt_dec v 0) as [L|L].
  - unfold int_to_array. replace (negb ((s =? 32) || (s =? 64))) with false by (destruct Hs as [-> | ->]; reflexivity).
    rewrite (proj2 (Z.ltb_lt _ _) L). cbn [orb]. split; [reflexivity|lia].
  - destruct (Z_lt_dec v (2 ^ Z.of_N (s * N.of_nat k))) as [H|H].
    + rewrite int_to_array_words by (assumption || lia). split; [lia|]. split; [apply to_words_length|]. split; [apply to_words_wf|].
      rewrite to_words_val, N.mod_small; [lia|]. apply N2Z.inj_lt. rewrite Z2N.id, N2Z.inj_pow by lia. exact H.
    + unfold int_to_array. replace (negb ((s =? 32) || (s =? 64))) with false by (destruct Hs as [-> | ->]; reflexivity).
      replace ((v <? 0) || (2 ^ Z.of_N (s * N.of_nat k) <=? v))%Z with true by lia. split; [reflexivity|lia].
Qed.
(* arr[i] = (value >> (uint_size*i)) % 2**uint_size *)
Theorem C33_int_to_array_elements :
  forall s k v i, s = 32 \/ s = 64 -> (0 <= v < 2 ^ Z.of_N (s * N.of_nat k))%Z -> (i < k)%nat ->
  exists l, int_to_array (Some (s * N.of_nat k)) s v = Ok l /\
  nth i l 0 = Z.to_N (v / 2 ^ (Z.of_N s * Z.of_nat i)) mod 2 ^ s.
Proof.
  intros s k v i Hs Hv Hi. exists (to_words s k (Z.to_N v)). split; [now apply int_to_array_words|].
  replace (Z.to_N (v / 2 ^ (Z.of_N s * Z.of_nat i))) with (Z.to_N v / 2 ^ (s * N.of_nat i)).
  2:{ rewrite Z2N.inj_div by (try apply Z.pow_nonneg; lia). f_equal. rewrite Z2N.inj_pow by lia. f_equal. lia. }
  assert (G : forall k i v, (i < k)%nat -> nth i (to_words s k v) 0 = v / 2 ^ (s * N.of_nat i) mod 2 ^ s).
  { clear. induction k as [|k IH]; intros i v Hi; [lia|]. cbn [to_words]. destruct i as [|i]; cbn [nth].
    - rewrite N.mul_0_r, N.pow_0_r, N.div_1_r. reflexivity.
    - rewrite IH by lia. rewrite N.div_div by apply pow2_nz. rewrite <- N.pow_add_r. do 3 f_equal. lia. }
  now apply G.
Qed.
(* an array of words as a key is the integer made of the words: it converts back to
   the same words *)
Theorem C33_array_argument :
  forall db s w k l, (w = 64 /\ s = true \/ w = 32) -> k <> 0%nat -> List.length l = k -> Forall (wf w) l ->
  object_to_int db s true (Some (w * N.of_nat k)) (OArr w l) = Some (Ok (Some (Z.of_N (lv w l)))) /\
  int_to_array (Some (w * N.of_nat k)) w (Z.of_N (lv w l)) = Ok l.
Proof.
  intros db s w k l Hw Hk L W.
  assert (B : (Z.of_N (lv w l) < 2 ^ Z.of_N (w * N.of_nat k))%Z).
  { pose proof (lv_lt w l W) as H. rewrite L in H. change 2%Z with (Z.of_N 2). rewrite <- N2Z.inj_pow. lia. }
  split.
  - unfold object_to_int. replace ((s && (w =? 64)) || (true && (w =? 32))) with true by (destruct Hw as [[-> ->] | ->]; [reflexivity|destruct s; reflexivity]).
    unfold arr_value, int_range. destruct l as [|x l]; [cbn in L; lia|].
    replace ((Z.of_N (lv w (x :: l)) <? 0) || (2 ^ Z.of_N (w * N.of_nat k) <=? Z.of_N (lv w (x :: l))))%Z with false by lia. reflexivity.
  - rewrite int_to_array_words by (try (destruct Hw as [[-> _] | ->]; auto; fail); lia). rewrite N2Z.id. f_equal. now apply to_words_lv.
Qed.
(* a list of integers is the array of the same words if its elements are all below
   2^63 or all at least 2^63 *)
Theorem C33_list_argument_partial :
  forall s32 k l, k <> 0%nat -> List.length l = k ->
  Forall (fun z => (0 <= z < 2 ^ 63)%Z) l \/ Forall (fun z => (2 ^ 63 <= z < 2 ^ 64)%Z) l ->
  object_to_int 64 true s32 (Some (64 * N.of_nat k)) (OSeq l) =
  object_to_int 64 true s32 (Some (64 * N.of_nat k)) (OArr 64 (map Z.to_N l)).
Proof.
  intros s32 k l Hk L H. unfold object_to_int.
  assert (E : np_array l = NpInt l).
  { unfold np_array. destruct H as [H|H].
    - replace (forallb fits_i64 l) with true; [reflexivity|]. symmetry. apply forallb_forall. rewrite Forall_forall in H. intros x Hx. specialize (H x Hx). unfold fits_i64. lia.
    - replace (forallb fits_u64_only l) with true; [now rewrite orb_true_r|]. symmetry. apply forallb_forall. rewrite Forall_forall in H. intros x Hx. specialize (H x Hx). unfold fits_u64_only. lia. }
  rewrite E. unfold cast_seq.
  replace (forallb _ l) with true; [rewrite N.eqb_refl; reflexivity|]. symmetry. apply forallb_forall. intros x Hx. change (Z.of_N 64) with 64%Z.
  destruct H as [H|H]; rewrite Forall_forall in H; specialize (H x Hx); lia.
Qed.
Example C33_list_case :
  object_to_int 64 true false (Some 128) (OSeq [5; 2 ^ 63 - 1]%Z) = Some (Ok (Some (5 + (2 ^ 63 - 1) * 2 ^ 64)%Z)) /\
  int_to_array (Some 128) 64 (5 + (2 ^ 63 - 1) * 2 ^ 64)%Z = Ok [5; 2 ^ 63 - 1].
Proof. split; vm_compute; reflexivity. Qed.
(* mixed with small elements, an element of 2^63 or more goes through a double:
   [1, 2^63 + 1] is taken as [1, 2^63], and [1, 2^64 - 1] casts 2^64 to uint64,
   which is undefined *)
Theorem C33_list_argument_refuted :
  object_to_int 64 true false (Some 128) (OSeq [1; 2 ^ 63 + 1]%Z) = Some (Ok (Some (1 + 2 ^ 63 * 2 ^ 64)%Z)) /\
  object_to_int 64 true false (Some 128) (OArr 64 [1; 2 ^ 63 + 1]) = Some (Ok (Some (1 + (2 ^ 63 + 1) * 2 ^ 64)%Z)) /\
  object_to_int 64 true false (Some 128) (OSeq [1; 2 ^ 64 - 1]%Z) = None.
Proof. repeat split; vm_compute; reflexivity. Qed.
(* two distinct lists of words may therefore select the same key *)
Theorem C33_list_argument_collision_refuted :
  exists l l', l <> l' /\ Forall (fun z => (0 <= z < 2 ^ 64)%Z) l /\ Forall (fun z => (0 <= z < 2 ^ 64)%Z) l' /\ List.length l = List.length l' /\
  object_to_int 64 true false (Some 128) (OSeq l) = object_to_int 64 true false (Some 128) (OSeq l').
Proof.
  exists [1; 2 ^ 63]%Z, [1; 2 ^ 63 + 1]%Z. split; [discriminate|]. split; [repeat constructor; lia|]. split; [repeat constructor; lia|].
  split; [reflexivity|]. vm_compute. reflexivity.
Qed.
(* elements that are no words are rejected *)
Theorem C33_list_range :
  forall s32 bits l, Forall (fun z => (- 2 ^ 63 <= z < 2 ^ 63)%Z) l -> Exists (fun z => (z < 0)%Z) l ->
  object_to_int 64 true s32 bits (OSeq l) = Some (Raise ValueError).
Proof.
  intros s32 bits l H X. unfold object_to_int, np_array.
  replace (forallb fits_i64 l) with true by (symmetry; apply forallb_forall; rewrite Forall_forall in H; intros x Hx; specialize (H x Hx); unfold fits_i64; lia).
  cbn [orb]. unfold cast_seq. destruct (forallb _ l) eqn:E; [|reflexivity]. exfalso. rewrite forallb_forall in E. apply Exists_exists in X.
  destruct X as (x & Hx & Lx). specialize (E x Hx). lia.
Qed.
(* arrays: the dtype must be one of the allowed ones (TypeError) and the array
   one-dimensional (ValueError) *)
Theorem C33_array_rejected :
  forall db s64 s32 bits w l, let allowed := (s64 = true /\ w = 64) \/ (s32 = true /\ w = 32) in
  (allowed -> object_to_int db s64 s32 bits (OArrNd w) = Some (Raise ValueError) /\ object_to_int db s64 s32 bits (OArr w []) = Some (Raise ValueError)) /\
  (~ allowed -> object_to_int db s64 s32 bits (OArrNd w) = Some (Raise TypeError) /\ object_to_int db s64 s32 bits (OArr w l) = Some (Raise TypeError)).
Proof.
  intros db s64 s32 bits w l allowed. unfold object_to_int, allowed. split; intros H.
  - replace ((s64 && (w =? 64)) || (s32 && (w =? 32))) with true by (destruct H as [[-> ->] | [-> ->]]; rewrite ?orb_true_r; reflexivity). split; reflexivity.
  - destruct (N.eqb_spec w 64) as [E1|N1], (N.eqb_spec w 32) as [E2|N2]; destruct s64, s32; cbn; try (split; reflexivity); exfalso; apply H; tauto.
Qed.
(* the view of a word array in the other word size does not depend on the byte
   order of the machine *)
Theorem C33_view_byte_order :
  forall n n' l, (0 < n)%nat -> (0 < n')%nat -> Forall (wf (8 * N.of_nat n)) l ->
  view_little_endian true n n' l = view_little_endian false n n' l.
Proof. exact view_endian_free. Qed.
Theorem C33_view_halves :
  forall big l, Forall (wf 64) l ->
  view_little_endian big 8 4 l = flat_map (fun x => [x mod 2 ^ 32; x / 2 ^ 32]) l /\
  view_little_endian big 4 8 (view_little_endian big 8 4 l) = l.
Proof. intros big l W. rewrite view_64_32 by exact W. split; [reflexivity|]. now apply view_32_64. Qed.
Example C33_view_case :
  view_little_endian true 8 4 [0x0123456789abcdef; 7] = [0x89abcdef; 0x01234567; 7; 0] /\ np_view true 8 4 [0x0123456789abcdef] = [0x01234567; 0x89abcdef].
Proof. split; vm_compute; reflexivity. Qed.

(* -------------------------------------------------------------- C34 *)
(* Every rounding function that leaves the numbers of the format alone. The result
   of a double from 64 raw bits is k/2^53 for k = raw >> 11. *)
Definition rounds (p emin emax : Z) (rnd : Q -> Q) : Prop := forall x, rep p emin emax x -> (rnd x == x)%Q.
Theorem C34_double_64 :
  forall rnd, rounds 53 (-1074) 971 rnd -> forall u, (0 <= u < 2 ^ 64)%Z ->
  let d := scale_mul rnd 11 53 u in
  (d == inject_Z (u / 2 ^ 11) * p2 (-53))%Q /\ (0 <= d)%Q /\ (d < 1)%Q /\ (scale_div rnd 11 53 u == d)%Q.
Proof.
  intros rnd H u Hu. cbn zeta.
  assert (B : (0 <= u / 2 ^ 11 < 2 ^ 53)%Z) by (split; [apply Z.div_pos; lia|apply Z.div_lt_upper_bound; lia]).
  pose proof (scale_mul_exact 53 (-1074) 971 rnd ltac:(lia) ltac:(lia) H 11 53 u ltac:(lia) ltac:(lia) B) as E.
  pose proof (scale_div_exact 53 (-1074) 971 rnd ltac:(lia) ltac:(lia) H 11 53 u ltac:(lia) ltac:(lia) B) as E'.
  destruct (frac_bounds (u / 2 ^ 11) 53 ltac:(lia) B) as [F1 F2]. rewrite E' , E. split; [reflexivity|]. split; [exact F1|]. split; [exact F2|reflexivity].
Qed.
(* each k/2^53 with 0 <= k < 2^53 has exactly the 2^11 pre-images from k*2^11 on *)
Theorem C34_double_64_uniform :
  forall rnd, rounds 53 (-1074) 971 rnd -> forall u k, (0 <= u < 2 ^ 64)%Z -> (0 <= k < 2 ^ 53)%Z ->
  ((scale_mul rnd 11 53 u == inject_Z k * p2 (-53))%Q <-> (k * 2 ^ 11 <= u < (k + 1) * 2 ^ 11)%Z).
Proof.
  intros rnd H u k Hu Hk. destruct (C34_double_64 rnd H u Hu) as (E & _). rewrite E. change (frac (u / 2 ^ 11) 53 == frac k 53 <-> (k * 2 ^ 11 <= u < (k + 1) * 2 ^ 11)%Z)%Q.
  rewrite frac_inj. pose proof (Z.div_mod u (2 ^ 11) ltac:(lia)) as D. pose proof (Z.mod_pos_bound u (2 ^ 11) ltac:(lia)) as R. split; intros; [lia|].
  symmetry. apply (Z.div_unique u (2 ^ 11) k (u - k * 2 ^ 11)); lia.
Qed.
(* a double from two 32-bit draws *)
Theorem C34_double_32 :
  forall rnd, rounds 53 (-1074) 971 rnd -> forall u v, (0 <= u < 2 ^ 32)%Z -> (0 <= v < 2 ^ 32)%Z ->
  let d := scale2 rnd 5 6 26 53 u v in
  (d == inject_Z (u / 2 ^ 5 * 2 ^ 26 + v / 2 ^ 6) * p2 (-53))%Q /\ (0 <= d)%Q /\ (d < 1)%Q.
Proof.
  intros rnd H u v Hu Hv. cbn zeta.
  assert (B : (0 <= u / 2 ^ 5 < 2 ^ (53 - 26))%Z) by (split; [apply Z.div_pos; lia|apply Z.div_lt_upper_bound; lia]).
  assert (B' : (0 <= v / 2 ^ 6 < 2 ^ 26)%Z) by (split; [apply Z.div_pos; lia|apply Z.div_lt_upper_bound; lia]).
  pose proof (scale2_exact 53 (-1074) 971 rnd ltac:(lia) ltac:(lia) H 5 6 26 53 u v ltac:(lia) ltac:(lia) ltac:(lia) B ltac:(lia) B') as E.
  rewrite E. split; [reflexivity|]. apply frac_bounds; lia.
Qed.
Theorem C34_double_32_uniform :
  forall rnd, rounds 53 (-1074) 971 rnd -> forall u v k, (0 <= u < 2 ^ 32)%Z -> (0 <= v < 2 ^ 32)%Z -> (0 <= k < 2 ^ 53)%Z ->
  ((scale2 rnd 5 6 26 53 u v == inject_Z k * p2 (-53))%Q <->
   (k / 2 ^ 26 * 2 ^ 5 <= u < (k / 2 ^ 26 + 1) * 2 ^ 5)%Z /\ (k mod 2 ^ 26 * 2 ^ 6 <= v < (k mod 2 ^ 26 + 1) * 2 ^ 6)%Z).
Proof.
  intros rnd H u v k Hu Hv Hk. destruct (C34_double_32 rnd H u v Hu Hv) as (E & _). rewrite E.
  change (frac (u / 2 ^ 5 * 2 ^ 26 + v / 2 ^ 6) 53 == frac k 53 <-> (k / 2 ^ 26 * 2 ^ 5 <= u < (k / 2 ^ 26 + 1) * 2 ^ 5)%Z /\ (k mod 2 ^ 26 * 2 ^ 6 <= v < (k mod 2 ^ 26 + 1) * 2 ^ 6)%Z)%Q.
  rewrite frac_inj.
  pose proof (Z.div_mod u (2 ^ 5) ltac:(lia)). pose proof (Z.mod_pos_bound u (2 ^ 5) ltac:(lia)).
  pose proof (Z.div_mod v (2 ^ 6) ltac:(lia)). pose proof (Z.mod_pos_bound v (2 ^ 6) ltac:(lia)).
  pose proof (Z.div_mod k (2 ^ 26) ltac:(lia)). pose proof (Z.mod_pos_bound k (2 ^ 26) ltac:(lia)).
  change (2 ^ 5)%Z with 32%Z in *. change (2 ^ 6)%Z with 64%Z in *. change (2 ^ 26)%Z with 67108864%Z in *. change (2 ^ 32)%Z with 4294967296%Z in *.
  split; intros; lia.
Qed.
(* float32 from one 32-bit draw *)
Theorem C34_float32 :
  forall rnd, rounds 24 (-149) 104 rnd -> forall u, (0 <= u < 2 ^ 32)%Z ->
  let d := scale_mul rnd 9 23 u in
  (d == inject_Z (u / 2 ^ 9) * p2 (-23))%Q /\ (0 <= d)%Q /\ (d < 1)%Q.
Proof.
  intros rnd H u Hu. cbn zeta.
  assert (B : (0 <= u / 2 ^ 9 < 2 ^ 23)%Z) by (split; [apply Z.div_pos; lia|apply Z.div_lt_upper_bound; lia]).
  pose proof (scale_mul_exact 24 (-149) 104 rnd ltac:(lia) ltac:(lia) H 9 23 u ltac:(lia) ltac:(lia) ltac:(lia)) as E.
  rewrite E. split; [reflexivity|]. apply frac_bounds; lia.
Qed.
Theorem C34_float32_uniform :
  forall rnd, rounds 24 (-149) 104 rnd -> forall u k, (0 <= u < 2 ^ 32)%Z -> (0 <= k < 2 ^ 23)%Z ->
  ((scale_mul rnd 9 23 u == inject_Z k * p2 (-23))%Q <-> (k * 2 ^ 9 <= u < (k + 1) * 2 ^ 9)%Z).
Proof.
  intros rnd H u k Hu Hk. destruct (C34_float32 rnd H u Hu) as (E & _). rewrite E. change (frac (u / 2 ^ 9) 23 == frac k 23 <-> (k * 2 ^ 9 <= u < (k + 1) * 2 ^ 9)%Z)%Q.
  rewrite frac_inj. pose proof (Z.div_mod u (2 ^ 9) ltac:(lia)) as D. pose proof (Z.mod_pos_bound u (2 ^ 9) ltac:(lia)) as R. split; intros; [lia|].
  symmetry. apply (Z.div_unique u (2 ^ 9) k (u - k * 2 ^ 9)); lia.
Qed.
(* long double: x87 extended keeps all 64 bits *)
Theorem C34_long_double_x87 :
  forall rnd, rounds 64 (-16445) 16320 rnd -> forall u, (0 <= u < 2 ^ 64)%Z ->
  let d := scale_mul rnd 0 64 u in (d == inject_Z u * p2 (-64))%Q /\ (0 <= d)%Q /\ (d < 1)%Q.
Proof.
  intros rnd H u Hu. cbn zeta.
  pose proof (scale_mul_exact 64 (-16445) 16320 rnd ltac:(lia) ltac:(lia) H 0 64 u ltac:(lia) ltac:(lia)) as E.
  rewrite Z.pow_0_r, Z.div_1_r in E. rewrite E by lia. split; [reflexivity|]. apply frac_bounds; lia.
Qed.
Theorem C34_long_double_ibm :
  forall rnd, rounds 106 (-1074) 918 rnd -> forall u v, (0 <= u < 2 ^ 64)%Z -> (0 <= v < 2 ^ 64)%Z ->
  let d := scale2 rnd 11 11 53 106 u v in
  (d == inject_Z (u / 2 ^ 11 * 2 ^ 53 + v / 2 ^ 11) * p2 (-106))%Q /\ (0 <= d)%Q /\ (d < 1)%Q.
Proof.
  intros rnd H u v Hu Hv. cbn zeta.
  assert (B : (0 <= u / 2 ^ 11 < 2 ^ (106 - 53))%Z) by (split; [apply Z.div_pos; lia|apply Z.div_lt_upper_bound; lia]).
  assert (B' : (0 <= v / 2 ^ 11 < 2 ^ 53)%Z) by (split; [apply Z.div_pos; lia|apply Z.div_lt_upper_bound; lia]).
  pose proof (scale2_exact 106 (-1074) 918 rnd ltac:(lia) ltac:(lia) H 11 11 53 106 u v ltac:(lia) ltac:(lia) ltac:(lia) B ltac:(lia) B') as E.
  rewrite E. split; [reflexivity|]. apply frac_bounds; lia.
Qed.
Theorem C34_long_double_binary128 :
  forall rnd, rounds 113 (-16494) 16271 rnd -> forall u v, (0 <= u < 2 ^ 64)%Z -> (0 <= v < 2 ^ 64)%Z ->
  let d := scale2 rnd 7 8 56 113 u v in
  (d == inject_Z (u / 2 ^ 7 * 2 ^ 56 + v / 2 ^ 8) * p2 (-113))%Q /\ (0 <= d)%Q /\ (d < 1)%Q.
Proof.
  intros rnd H u v Hu Hv. cbn zeta.
  assert (B : (0 <= u / 2 ^ 7 < 2 ^ (113 - 56))%Z) by (split; [apply Z.div_pos; lia|apply Z.div_lt_upper_bound; lia]).
  assert (B' : (0 <= v / 2 ^ 8 < 2 ^ 56)%Z) by (split; [apply Z.div_pos; lia|apply Z.div_lt_upper_bound; lia]).
  pose proof (scale2_exact 113 (-16494) 16271 rnd ltac:(lia) ltac:(lia) H 7 8 56 113 u v ltac:(lia) ltac:(lia) ltac:(lia) B ltac:(lia) B') as E.
  rewrite E. split; [reflexivity|]. apply frac_bounds; lia.
Qed.
(* the identity is such a rounding; 0.5 and the largest double below 1 *)
Example C34_case :
  rounds 53 (-1074) 971 (fun x => x) /\ (scale_mul (fun x => x) 11 53 (2 ^ 63) == 1 # 2)%Q /\
  (scale_mul (fun x => x) 11 53 (2 ^ 64 - 1) == 1 - p2 (-53))%Q /\ (scale2 (fun x => x) 5 6 26 53 (2 ^ 32 - 1) (2 ^ 32 - 1) == 1 - p2 (-53))%Q.
Proof. split; [intros x _; reflexivity|]. repeat split; vm_compute; reflexivity. Qed.
(* pcg32's double uses its next two 32-bit values, the first one high *)
Theorem C34_pcg32 :
  forall s, let '(s1, a) := pcg32_next32 s in let '(s2, b) := pcg32_next32 s1 in
  pcg32_next_double s = (s2, a / 2 ^ 5 * 2 ^ 26 + b / 2 ^ 6) /\ snd (pcg32_next_double s) < 2 ^ 53.
Proof.
  intros s. unfold pcg32_next_double. destruct (pcg32_next32 s) as [s1 a] eqn:E1. destruct (pcg32_next32 s1) as [s2 b] eqn:E2.
  cbn [snd]. rewrite !N.shiftr_div_pow2. split; [reflexivity|].
  assert (forall t, snd (pcg32_next32 t) < 2 ^ 32) as W.
  { intros t. unfold pcg32_next32. cbn [snd]. apply wf32_xsh. }
  pose proof (W s) as Wa. rewrite E1 in Wa. pose proof (W s1) as Wb. rewrite E2 in Wb. cbn [snd] in Wa, Wb.
  assert (a / 2 ^ 5 < 2 ^ 27) by (apply N.div_lt_upper_bound; [discriminate|exact Wa]).
  assert (b / 2 ^ 6 < 2 ^ 26) by (apply N.div_lt_upper_bound; [discriminate|exact Wb]).
  change 67108864 with (2 ^ 26). lia.
Qed.

(* ------------------------------------------------------------- C61 *)
(* random(size, dtype=longdouble) fills every element when there are fewer than
   2^31 of them *)
Theorem C61_long_double_fill_partial :
  forall n, (Z.of_nat n < 2 ^ 31)%Z -> ld_fill n 0 = Some (Z.of_nat n).
Proof.
  assert (G : forall n i, (0 <= i)%Z -> (i + Z.of_nat n < 2 ^ 31)%Z -> ld_fill n i = Some (i + Z.of_nat n)%Z).
  { induction n as [|n IH]; intros i Hi Hn; cbn [ld_fill]; [f_equal; lia|].
    unfold INT_MAX. replace (i =? 2 ^ 31 - 1)%Z with false by lia. rewrite IH by lia. f_equal. lia. }
  intros n Hn. now rewrite G by lia.
Qed.
(* and overflows its counter with 2^31 or more *)
Theorem C61_long_double_fill_refuted :
  forall n, (2 ^ 31 <= Z.of_nat n)%Z -> ld_fill n 0 = None.
Proof.
  assert (G : forall n i, (0 <= i < 2 ^ 31)%Z -> (2 ^ 31 <= i + Z.of_nat n)%Z -> ld_fill n i = None).
  { induction n as [|n IH]; intros i Hi Hn; cbn [ld_fill]; [lia|].
    unfold INT_MAX. destruct (Z.eqb_spec i (2 ^ 31 - 1)) as [E|E]; [reflexivity|]. apply IH; lia. }
  intros n Hn. apply G; lia.
Qed.

Print Assumptions C23_batches.
Print Assumptions C23_scalar.
Print Assumptions C23_shape.
Print Assumptions C23_no_output_partial.
Print Assumptions C23_no_output_refuted.
Print Assumptions C33_wrap_int.
Print Assumptions C33_int_argument.
Print Assumptions C33_int_to_array.
Print Assumptions C33_int_to_array_elements.
Print Assumptions C33_array_argument.
Print Assumptions C33_list_argument_partial.
Print Assumptions C33_list_argument_refuted.
Print Assumptions C33_list_argument_collision_refuted.
Print Assumptions C33_list_range.
Print Assumptions C33_array_rejected.
Print Assumptions C33_view_byte_order.
Print Assumptions C33_view_halves.
Print Assumptions C34_double_64.
Print Assumptions C34_double_64_uniform.
Print Assumptions C34_double_32.
Print Assumptions C34_double_32_uniform.
Print Assumptions C34_float32.
Print Assumptions C34_float32_uniform.
Print Assumptions C34_long_double_x87.
Print Assumptions C34_long_double_ibm.
Print Assumptions C34_long_double_binary128.
Print Assumptions C34_pcg32.
Print Assumptions C61_long_double_fill_partial.
Print Assumptions C61_long_double_fill_refuted.
