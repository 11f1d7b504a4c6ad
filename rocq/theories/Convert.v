(* common.pyx: object_to_int, int_to_array, view_little_endian, check_state_array,
   random_raw. *)
From Verif Require Import Word MultiWord Common Buffer32 Py.
From Coq Require Import String ZifyBool ZifyNat ZifyN.
Open Scope N_scope.
Ltac Zify.zify_post_hook ::= idtac.

(* ---------------------------------------------------------- object_to_int *)
(* What can be passed as a key or counter. OArr: a one-dimensional (or
   zero-dimensional) numpy array of dtype uint{w}; OArrNd: one with more
   dimensions; OArrBad: a numpy array of another dtype; OSeq: a list, tuple or
   other flat sequence of Python integers; OFrac: a sequence with a value that is
   not an integer; OBad: anything numpy does not turn into a numeric array.
   Sequences with floats that happen to be integers are not modelled. *)
Inductive objv := ONone | OInt (z : Z) | OArr (w : N) (l : list N) | OArrNd (w : N) | OArrBad | OSeq (l : list Z) | OFrac | OBad.

(* np.array(list of Python ints): int64 when every element fits, uint64 when every
   element is in [2^63, 2^64), float64 when elements of both kinds occur, object
   when one fits neither. *)
Definition fits_i64 (z : Z) : bool := ((- 2 ^ 63 <=? z) && (z <? 2 ^ 63))%Z.
Definition fits_u64_only (z : Z) : bool := ((2 ^ 63 <=? z) && (z <? 2 ^ 64))%Z.
(* rounding of a non-negative integer to the nearest double, ties to even *)
Definition to_double (z : Z) : Z :=
  if (z <? 2 ^ 53)%Z then z
  else let q := (2 ^ (Z.log2 z - 52))%Z in
       let d := (z / q)%Z in
       let r := (z mod q)%Z in
       ((if (q <? 2 * r) || ((2 * r =? q) && Z.odd d) then d + 1 else d) * q)%Z.
Inductive nparr := NpInt (l : list Z) | NpFloat (l : list Z) | NpObject.
Definition np_array (l : list Z) : nparr :=
  if forallb fits_i64 l || forallb fits_u64_only l then NpInt l
  else if forallb (fun z => fits_i64 z || fits_u64_only z) l then NpFloat (map (fun z => if (z <? 0)%Z then z else to_double z) l)
  else NpObject.

(* common.pyx:384-388, the final range check; bits None: no upper bound *)
Definition int_range (bits : option N) (z : Z) : outcome (option Z) :=
  if ((z <? 0) || match bits with Some b => 2 ^ Z.of_N b <=? z | None => false end)%Z then Raise ValueError else Ok (Some z).
(* common.pyx:380-383 *)
Definition arr_value (w : N) (l : list N) (bits : option N) : outcome (option Z) :=
  match l with [] => Raise ValueError | _ => int_range bits (Z.of_N (lv w l)) end.
(* common.pyx:374-379: the range check against np.iinfo(dtype).max and the cast. A
   float array is compared with the maximum rounded to a double (2^64 for uint64),
   and the cast of a float of 2^64 or more to uint64 is undefined: None. *)
Definition cast_seq (db : N) (v : nparr) (bits : option N) : option (outcome (option Z)) :=
  match v with
  | NpObject => Some (Raise ValueError)
  | NpInt l => Some (if forallb (fun z => (0 <=? z) && (z <=? 2 ^ Z.of_N db - 1))%Z l then arr_value db (map Z.to_N l) bits else Raise ValueError)
  | NpFloat l =>
      if forallb (fun z => (0 <=? z) && (z <=? to_double (2 ^ Z.of_N db - 1)))%Z l then
        if forallb (fun z => z <? 2 ^ Z.of_N db)%Z l then Some (arr_value db (map Z.to_N l) bits) else None
      else Some (Raise ValueError)
  end.
(* common.pyx:328-388. s64, s32: whether 64, 32 are in allowed_sizes; db: the
   width of default_bits. *)
Definition object_to_int (db : N) (s64 s32 : bool) (bits : option N) (v : objv) : option (outcome (option Z)) :=
  match v with
  | ONone => Some (Ok None)
  | OInt z => Some (int_range bits z)
  | OArr w l => Some (if (s64 && (w =? 64)) || (s32 && (w =? 32)) then arr_value w l bits else Raise TypeError)
  | OArrNd w => Some (if (s64 && (w =? 64)) || (s32 && (w =? 32)) then Raise ValueError else Raise TypeError)
  | OArrBad => Some (Raise TypeError)
  | OSeq l => cast_seq db (np_array l) bits
  | OFrac => Some (Raise TypeError)
  | OBad => Some (Raise ValueError)
  end.

(* ----------------------------------------------------------- int_to_array *)
(* common.pyx:452-454: while value: out.append(value % 2**s); value >>= s. The
   loop runs once per nonzero digit; fuel: the number of bits of value. *)
Fixpoint digits (fuel : nat) (s v : N) : list N :=
  match fuel with
  | O => []
  | S k => if v =? 0 then [] else v mod 2 ^ s :: digits k s (N.shiftr v s)
  end.
(* common.pyx:411-461 with a Python integer *)
Definition int_to_array (bits : option N) (s : N) (v : Z) : outcome (list N) :=
  if negb ((s =? 32) || (s =? 64)) then Raise ValueError
  else if match bits with Some b => (v <? 0) || (2 ^ Z.of_N b <=? v) | None => false end%Z then Raise ValueError
  else
    (* bits is None and value negative: value >>= s stays negative, the loop does
       not end; no caller does this *)
    let out := digits (N.size_nat (Z.to_N v)) s (Z.to_N v) in
    Ok match bits with
       | Some b => let len := N.to_nat (b / s) in (out ++ repeat 0 (len - List.length out))%list
       | None => out
       end.

(* ------------------------------------------------------ view_little_endian *)
(* Memory of an array of w-bit words, one byte per element, on a little-endian
   and on a big-endian machine *)
Definition bytes_of (big : bool) (n : nat) (x : N) : list N := if big then rev (to_words 8 n x) else to_words 8 n x.
Definition memory (big : bool) (n : nat) (l : list N) : list N := flat_map (bytes_of big n) l.
Fixpoint words_from (big : bool) (n : nat) (k : nat) (mem : list N) : list N :=
  match k with
  | O => []
  | S k => lv 8 (if big then rev (firstn n mem) else firstn n mem) :: words_from big n k (skipn n mem)
  end.
(* arr.view(dtype): m elements of n bytes each are read as elements of n' bytes *)
Definition np_view (big : bool) (n n' : nat) (l : list N) : list N :=
  words_from big n' (n * List.length l / n') (memory big n l).
(* arr.byteswap() *)
Definition byteswap1 (n : nat) (x : N) : N := lv 8 (rev (to_words 8 n x)).
Definition byteswap (n : nat) (l : list N) : list N := map (byteswap1 n) l.
(* common.pyx:470-479; n, n': element sizes in bytes, 4 or 8 *)
Definition view_little_endian (big : bool) (n n' : nat) (l : list N) : list N :=
  if Nat.eqb n n' || negb big then np_view big n n' l
  else byteswap n' (np_view big n n' (byteswap n l)).

(* ------------------------------------------------------------- random_raw *)
(* The size argument: None, an integer or a tuple *)
Inductive size := SzNone | SzInt (n : Z) | SzTuple (l : list Z).
(* number of elements of np.empty(size): ValueError for a negative dimension *)
Definition np_size (s : size) : outcome N :=
  match s with
  | SzNone => Ok 1
  | SzInt n => if (n <? 0)%Z then Raise ValueError else Ok (Z.to_N n)
  | SzTuple l => if existsb (fun n => n <? 0)%Z l then Raise ValueError else Ok (Z.to_N (fold_right Z.mul 1 l)%Z)
  end.
(* common.pyx:231-240, output=False: n = np.asarray(size).sum(). The sum of an
   empty tuple is the float 0.0, which does not convert to Py_ssize_t. Sums and
   products past 2^63 (no memory for them) are not modelled. *)
Definition raw_count (output : bool) (s : size) : outcome N :=
  if output then np_size s
  else match s with
       | SzNone => Ok 1
       | SzInt n => Ok (Z.to_N n)
       | SzTuple [] => Raise TypeError
       | SzTuple l => Ok (Z.to_N (fold_right Z.add 0 l)%Z)
       end.
Section Raw.
  Context {A : Type} (next : A -> A * N).
  (* common.pyx:199-254. The values are returned in the order drawn (C order of
     the result), [] when output is False. *)
  Definition random_raw (output : bool) (s : size) (a : A) : A * outcome (list N) :=
    match raw_count output s with
    | Ok n => let r := raws next (N.to_nat n) a in (fst r, Ok (if output then snd r else []))
    | Raise e => (a, Raise e)
    end.
End Raw.

(* ------------------------------------------------------------------ facts *)
Lemma digits_val fuel : forall s v, 0 < s -> v < 2 ^ N.of_nat fuel -> lv s (digits fuel s v) = v.
Proof.
  induction fuel as [|k IH]; intros s v Hs Hv; cbn [digits].
  - cbn in Hv. cbn. lia.
  - destruct (N.eqb_spec v 0) as [->|H]; [reflexivity|]. cbn [lv]. rewrite N.shiftr_div_pow2, IH.
    + rewrite (N.div_mod v (2 ^ s)) at 3 by apply pow2_nz. lia.
    + exact Hs.
    + apply N.div_lt_upper_bound; [apply pow2_nz|]. rewrite Nnat.Nat2N.inj_succ, N.pow_succ_r' in Hv.
      eapply N.lt_le_trans; [exact Hv|]. apply N.mul_le_mono_r. change 2 with (2 ^ 1) at 1. apply N.pow_le_mono_r; lia.
Qed.
Lemma digits_wf fuel : forall s v, Forall (wf s) (digits fuel s v).
Proof.
  induction fuel as [|k IH]; intros s v; cbn [digits]; [constructor|]. destruct (v =? 0); constructor; [|apply IH].
  unfold wf. apply N.mod_lt, pow2_nz.
Qed.
Lemma digits_length fuel : forall s v m, 0 < s -> v < 2 ^ (s * N.of_nat m) -> (List.length (digits fuel s v) <= m)%nat.
Proof.
  induction fuel as [|k IH]; intros s v m Hs Hv; cbn [digits]; [cbn; lia|].
  destruct (N.eqb_spec v 0) as [->|H]; [cbn; lia|]. cbn [List.length]. destruct m as [|m].
  - exfalso. rewrite N.mul_0_r in Hv. cbn in Hv. lia.
  - apply le_n_S. apply IH; [exact Hs|]. rewrite N.shiftr_div_pow2. apply N.div_lt_upper_bound; [apply pow2_nz|].
    rewrite <- N.pow_add_r. replace (s + s * N.of_nat m) with (s * N.of_nat (S m)) by lia. exact Hv.
Qed.
Lemma lv_zeros s k : lv s (repeat 0 k) = 0.
Proof. induction k as [|k IH]; [reflexivity|]. cbn [repeat lv]. rewrite IH. lia. Qed.
Lemma size_nat_gt v : v < 2 ^ N.of_nat (N.size_nat v).
Proof.
  replace (N.of_nat (N.size_nat v)) with (N.size v); [apply N.size_gt|].
  destruct v as [|p]; [reflexivity|]. cbn [N.size N.size_nat]. induction p as [p IH|p IH|]; [..|reflexivity];
  cbn [Pos.size Pos.size_nat]; rewrite Nnat.Nat2N.inj_succ, <- IH; reflexivity.
Qed.
Theorem int_to_array_words s k v : s = 32 \/ s = 64 -> (0 <= v < 2 ^ Z.of_N (s * N.of_nat k))%Z ->
  int_to_array (Some (s * N.of_nat k)) s v = Ok (to_words s k (Z.to_N v)).
Proof.
  intros Hs Hv. unfold int_to_array.
  replace (negb ((s =? 32) || (s =? 64))) with false by (destruct Hs as [-> | ->]; reflexivity).
  destruct ((v <? 0) || (2 ^ Z.of_N (s * N.of_nat k) <=? v))%Z eqn:E; [apply orb_true_iff in E; lia|].
  assert (Hs0 : 0 < s) by lia. rewrite (N.mul_comm s), N.div_mul, Nnat.Nat2N.id by lia.
  set (d := digits (N.size_nat (Z.to_N v)) s (Z.to_N v)).
  assert (B : Z.to_N v < 2 ^ (s * N.of_nat k)).
  { apply N2Z.inj_lt. rewrite Z2N.id, N2Z.inj_pow by lia. change (Z.of_N 2) with 2%Z. lia. }
  pose proof (digits_length (N.size_nat (Z.to_N v)) s (Z.to_N v) k Hs0 B) as L. fold d in L.
  f_equal. apply (lv_inj s).
  - rewrite app_length, repeat_length, to_words_length. lia.
  - apply Forall_app. split; [apply digits_wf|]. apply Forall_forall. intros x Hx. apply repeat_spec in Hx. subst x. unfold wf. pose proof (pow2_pos s). lia.
  - apply to_words_wf.
  - rewrite lv_app, lv_zeros, to_words_val. unfold d. rewrite digits_val by (exact Hs0 || apply size_nat_gt). rewrite N.mod_small by exact B. lia.
Qed.

Lemma to_words_le8 n x : List.length (to_words 8 n x) = n /\ Forall (wf 8) (to_words 8 n x).
Proof. split; [apply to_words_length|apply to_words_wf]. Qed.
Lemma byteswap_bytes n x : bytes_of true n (byteswap1 n x) = to_words 8 n x.
Proof.
  unfold bytes_of, byteswap1. rewrite to_words_lv, rev_involutive; [reflexivity|..].
  - rewrite rev_length. apply to_words_length.
  - apply Forall_rev, to_words_wf.
Qed.
Lemma memory_swap n l : memory true n (byteswap n l) = memory false n l.
Proof. induction l as [|x l IH]; [reflexivity|]. cbn [byteswap memory flat_map map]. rewrite byteswap_bytes. f_equal. exact IH. Qed.
Lemma memory_length big n l : List.length (memory big n l) = (n * List.length l)%nat.
Proof.
  induction l as [|x l IH]; [cbn; lia|]. cbn [memory flat_map]. rewrite app_length. fold (memory big n l). rewrite IH.
  unfold bytes_of. destruct big; rewrite ?rev_length, to_words_length; cbn [List.length]; lia.
Qed.
Lemma memory_wf big n l : Forall (wf 8) (memory big n l).
Proof.
  induction l as [|x l IH]; [constructor|]. cbn [memory flat_map]. apply Forall_app. split; [|exact IH].
  unfold bytes_of. destruct big; [apply Forall_rev|]; apply to_words_wf.
Qed.
Lemma byteswap1_lv n b : List.length b = n -> Forall (wf 8) b -> byteswap1 n (lv 8 (rev b)) = lv 8 b.
Proof.
  intros L W. unfold byteswap1. rewrite to_words_lv, rev_involutive; [reflexivity| |now apply Forall_rev].
  now rewrite rev_length.
Qed.
Lemma Forall_firstn {A} (P : A -> Prop) n l : Forall P l -> Forall P (firstn n l).
Proof. intros H. revert n. induction H; intros [|n]; cbn; constructor; auto. Qed.
Lemma Forall_skipn {A} (P : A -> Prop) n l : Forall P l -> Forall P (skipn n l).
Proof. intros H. revert n. induction H; intros [|n]; cbn; auto. Qed.
Lemma words_from_swap n k : forall mem, (k * n <= List.length mem)%nat -> Forall (wf 8) mem ->
  byteswap n (words_from true n k mem) = words_from false n k mem.
Proof.
  induction k as [|k IH]; intros mem L W; [reflexivity|]. cbn [words_from byteswap map].
  rewrite byteswap1_lv; [f_equal|..].
  - apply IH; [rewrite skipn_length; lia|now apply Forall_skipn].
  - rewrite firstn_length. lia.
  - now apply Forall_firstn.
Qed.
Lemma words_from_memory big n l : Forall (wf (8 * N.of_nat n)) l -> words_from big n (List.length l) (memory big n l) = l.
Proof.
  induction 1 as [|x l Hx Hl IH]; [reflexivity|]. cbn [List.length words_from memory flat_map].
  assert (E : List.length (bytes_of big n x) = n) by (unfold bytes_of; destruct big; rewrite ?rev_length; apply to_words_length).
  fold (memory big n l).
  replace (firstn n (bytes_of big n x ++ memory big n l)) with (bytes_of big n x)
    by (rewrite firstn_app, E, Nat.sub_diag, firstn_all2 by lia; now rewrite firstn_O, app_nil_r).
  replace (skipn n (bytes_of big n x ++ memory big n l)) with (memory big n l)
    by (rewrite skipn_app, E, Nat.sub_diag, skipn_all2 by lia; reflexivity).
  rewrite IH. f_equal. replace (if big then rev (bytes_of big n x) else bytes_of big n x) with (to_words 8 n x) by (destruct big; cbn; rewrite ?rev_involutive; reflexivity).
  rewrite to_words_val. now apply N.mod_small.
Qed.
Lemma np_view_same big n l : (0 < n)%nat -> Forall (wf (8 * N.of_nat n)) l -> np_view big n n l = l.
Proof.
  intros Hn W. unfold np_view. rewrite Nat.mul_comm, Nat.div_mul by lia. now apply words_from_memory.
Qed.
Lemma view_endian_free n n' l : (0 < n)%nat -> (0 < n')%nat -> Forall (wf (8 * N.of_nat n)) l ->
  view_little_endian true n n' l = view_little_endian false n n' l.
Proof.
  intros Hn Hn' W. unfold view_little_endian. destruct (Nat.eqb_spec n n') as [<-|D]; cbn [negb orb].
  - rewrite !np_view_same by assumption. reflexivity.
  - unfold np_view. rewrite memory_swap. unfold byteswap at 2. rewrite map_length. apply words_from_swap; [|apply memory_wf].
    rewrite memory_length. rewrite Nat.mul_comm. apply Nat.mul_div_le. lia.
Qed.
(* uint64 to uint32 *)
Lemma lv_prefix_mod l a : Forall (wf 8) l -> (a <= List.length l)%nat -> lv 8 (firstn a l) = lv 8 l mod 2 ^ (8 * N.of_nat a) /\ lv 8 (skipn a l) = lv 8 l / 2 ^ (8 * N.of_nat a).
Proof.
  intros W L. pose proof (lv_app 8 (firstn a l) (skipn a l)) as E. rewrite firstn_skipn in E. rewrite E, firstn_length_le by exact L.
  assert (B : lv 8 (firstn a l) < 2 ^ (8 * N.of_nat a)).
  { pose proof (lv_lt 8 (firstn a l)) as H. rewrite firstn_length_le in H by exact L. apply H. now apply Forall_firstn. }
  rewrite (N.add_comm (lv 8 (firstn a l))), (N.mul_comm (2 ^ _)). split.
  - rewrite N.add_comm, N.mod_add by apply pow2_nz. now rewrite N.mod_small.
  - rewrite N.div_add_l by apply pow2_nz. rewrite N.div_small by exact B. lia.
Qed.
Lemma view_64_32 big l : Forall (wf 64) l -> view_little_endian big 8 4 l = flat_map (fun x => [x mod 2 ^ 32; x / 2 ^ 32]) l.
Proof.
  intros W. transitivity (view_little_endian false 8 4 l); [destruct big; [apply view_endian_free; [lia..|exact W]|reflexivity]|].
  change (np_view false 8 4 l = flat_map (fun x => [x mod 2 ^ 32; x / 2 ^ 32]) l).
  unfold np_view. replace (8 * List.length l / 4)%nat with (2 * List.length l)%nat by (replace (8 * List.length l)%nat with (2 * List.length l * 4)%nat by lia; rewrite Nat.div_mul by lia; lia).
  induction W as [|x l Hx Hl IH]; [reflexivity|].
  cbn [flat_map]. rewrite <- IH. replace (2 * List.length (x :: l))%nat with (S (S (2 * List.length l))) by (cbn [List.length]; lia).
  unfold memory. cbn [words_from flat_map]. unfold bytes_of at 1 3.
  pose proof (lv_prefix_mod (to_words 8 8 x) 4) as [P Q]; [apply to_words_wf|cbn; lia|]. rewrite to_words_val in P, Q.
  change (8 * N.of_nat 8) with 64 in P, Q. change (8 * N.of_nat 4) with 32 in P, Q. rewrite (N.mod_small x (2 ^ 64)) in P, Q by exact Hx.
  rewrite <- P, <- Q. reflexivity.
Qed.
Lemma view_32_64 big l : Forall (wf 64) l -> view_little_endian big 4 8 (flat_map (fun x => [x mod 2 ^ 32; x / 2 ^ 32]) l) = l.
Proof.
  intros W. set (m := flat_map _ l).
  assert (Wm : Forall (wf (8 * N.of_nat 4)) m).
  { subst m. induction W as [|x l Hx Hl IH]; [constructor|]. cbn [flat_map]. change (8 * N.of_nat 4) with 32 in *. apply Forall_app; split; [|exact IH].
    constructor; [apply N.mod_lt; discriminate|]. constructor; [|constructor]. apply N.div_lt_upper_bound; [discriminate|exact Hx]. }
  transitivity (view_little_endian false 4 8 m); [destruct big; [apply view_endian_free; [lia..|exact Wm]|reflexivity]|].
  change (np_view false 4 8 m = l). unfold np_view. replace (4 * List.length m / 8)%nat with (List.length l).
  2:{ replace (List.length m) with (2 * List.length l)%nat; [replace (4 * (2 * List.length l))%nat with (List.length l * 8)%nat by lia; now rewrite Nat.div_mul by lia|].
      subst m. clear. induction l as [|x l IH]; [reflexivity|]. cbn [flat_map List.length List.app]. lia. }
  replace (memory false 4 m) with (memory false 8 l); [apply (words_from_memory false 8); exact W|].
  subst m. clear Wm. induction W as [|x l Hx Hl IH]; [reflexivity|]. unfold memory. cbn [flat_map List.app].
  fold (memory false 8 l). rewrite IH. fold (memory false 4). 
  assert (E : bytes_of false 8 x = (bytes_of false 4 (x mod 2 ^ 32) ++ bytes_of false 4 (x / 2 ^ 32))%list).
  { apply (lv_inj 8); unfold bytes_of.
    - rewrite app_length, !to_words_length. reflexivity.
    - apply to_words_wf.
    - apply Forall_app. split; apply to_words_wf.
    - rewrite lv_app, !to_words_val, to_words_length. change (8 * N.of_nat 8) with 64. change (8 * N.of_nat 4) with 32.
      rewrite N.mod_mod, (N.mod_small (x / 2 ^ 32)), (N.mod_small x (2 ^ 64)) by (discriminate || exact Hx || (apply N.div_lt_upper_bound; [discriminate|exact Hx])).
      rewrite (N.div_mod x (2 ^ 32)) at 1 by discriminate. lia. }
  rewrite E, <- app_assoc. reflexivity.
Qed.
