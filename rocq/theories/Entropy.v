(* entropy.pyx, src/entropy/entropy.c and src/splitmix64/splitmix64.h *)
From Verif Require Import Word Py Convert.
From Coq Require Import String ZifyBool ZifyNat ZifyN.
Open Scope N_scope.
Ltac Zify.zify_post_hook ::= idtac.

(* -------------------------------------------------------------- SplitMix64 *)
(* splitmix64.h:9-14 *)
Definition SM_GAMMA : N := 0x9e3779b97f4a7c15.
Definition sm_mix (z : N) : N :=
  let z := wmul 64 (N.lxor z (N.shiftr z 30)) 0xbf58476d1ce4e5b9 in
  let z := wmul 64 (N.lxor z (N.shiftr z 27)) 0x94d049bb133111eb in
  N.lxor z (N.shiftr z 31).
Definition splitmix64_next (s : N) : N * N := let s' := wadd 64 s SM_GAMMA in (s', sm_mix s').

(* ----------------------------------------------------------- seed_by_array *)
(* entropy.pyx:101-111, the loop. todo: rounds left, seed: the seed words not used
   yet, c: seed_copy, st: initial_state (length n). The memoryview access is
   bounds-checked (entropy.pyx has no boundscheck=False): None is the IndexError.
   "int i, loc" against Py_ssize_t bounds: sizes past 2^31 are not modelled. *)
Fixpoint sba_loop (todo : nat) (seed : list N) (n loc : nat) (c : N) (st : list N) : option (list N) :=
  match todo with
  | O => Some st
  | S t =>
      let c1 := match seed with [] => c | x :: _ => N.lxor c x end in
      let '(c2, v) := splitmix64_next c1 in
      if Nat.ltb loc (List.length st) then
        sba_loop t (List.tl seed) n (if Nat.eqb (S loc) n then 0%nat else S loc) c2 (firstn loc st ++ v :: skipn (S loc) st)%list
      else None
  end.
(* g: the content of np.empty(n) *)
Definition sba_words (seed : list N) (n : nat) (g : list N) : option (list N) :=
  sba_loop (if Nat.ltb (List.length seed) n then n else List.length seed) seed n 0 0 g.
(* The seed argument: a Python integer, a uint64 array, a list of Python
   integers, or something that is none of these (strings, complex and fractional
   numbers: TypeError; more dimensions: ValueError) *)
Inductive seedv := SVInt (z : Z) | SVArr (l : list N) | SVList (l : list Z) | SVType | SVNd.
(* entropy.pyx:79-99. A list goes through np.asarray(seed) before it becomes an
   object array: mixed elements have become doubles by then. *)
Definition sba_convert (v : seedv) : outcome (list N) :=
  match v with
  | SVInt z => if ((z <? 0) || (2 ^ 64 - 1 <? z))%Z then Raise ValueError else Ok [Z.to_N z]
  | SVArr l => Ok l
  | SVList l => match np_array l with
                | NpInt m | NpFloat m => if existsb (fun z => (2 ^ 64 - 1 <? z) || (z <? 0))%Z m then Raise ValueError else Ok (map Z.to_N m)
                | NpObject => if existsb (fun z => (2 ^ 64 - 1 <? z) || (z <? 0))%Z l then Raise ValueError else Ok (map Z.to_N l)
                end
  | SVType => Raise TypeError
  | SVNd => Raise ValueError
  end.
Definition seed_by_array (v : seedv) (n : Z) (g : list N) : outcome (list N) :=
  match sba_convert v with
  | Raise e => Raise e
  | Ok seed => if (n <? 0)%Z then Raise ValueError
               else match sba_words seed (Z.to_nat n) g with Some l => Ok l | None => Raise IndexError end
  end.

(* the words a seed should give: k successive outputs *)
Fixpoint sm_outs (k : nat) (seed : list N) (c : N) : list N :=
  match k with
  | O => []
  | S k => let '(c2, v) := splitmix64_next (match seed with [] => c | x :: _ => N.lxor c x end) in v :: sm_outs k (List.tl seed) c2
  end.

(* ----------------------------------------------------------- random_entropy *)
(* What the operating system does: open succeeds, read returns sz (negative for an
   error) and stores the bytes, close succeeds. entropy.c:80-88; the buffer was
   zeroed by the caller. *)
Record osread := OS { os_open : bool; os_sz : Z; os_bytes : list N; os_close : bool }.
Definition getbytes_unix (o : osread) (size : N) : bool * list N :=
  if negb (os_open o) then (false, repeat 0 (N.to_nat size))
  else let n := N.to_nat size in
       let got := firstn n (firstn (Z.to_nat (os_sz o)) (os_bytes o)) in
       let buf := (got ++ repeat 0 (n - List.length got))%list in
       if ((os_sz o <? 0) || (os_sz o <? Z.of_N size))%Z then (false, buf) else (os_close o, buf).
(* entropy.c:92-109: acquire: CryptAcquireContext gave a provider; done and bytes:
   the result of CryptGenRandom *)
Definition getbytes_win (acquire done : bool) (bytes : list N) (size : N) : bool * list N :=
  if negb acquire then (true, repeat 0 (N.to_nat size))
  else if done then (true, firstn (N.to_nat size) bytes) else (false, repeat 0 (N.to_nat size)).
(* entropy.c:112-120 *)
Definition entropy_hash_32 (key : N) : N :=
  let key := wadd 32 key (wnot 32 (wshl 32 key 15)) in
  let key := N.lxor key (N.shiftr key 10) in
  let key := wadd 32 key (wshl 32 key 3) in
  let key := N.lxor key (N.shiftr key 6) in
  let key := wadd 32 key (wnot 32 (wshl 32 key 11)) in
  N.lxor key (N.shiftr key 16).
(* entropy.c:155-166: "int hashes = (int)size; malloc(hashes * sizeof(uint32_t))";
   size bytes are copied out of the block. None: the copy reads outside it (or from
   NULL). rnd i: the i-th result of entropy_randombytes (time dependent). *)
Definition to_int32 (z : Z) : Z := ((z + 2 ^ 31) mod 2 ^ 32 - 2 ^ 31)%Z.
Definition word_bytes (x : N) : list N := [x mod 256; x / 256 mod 256; x / 65536 mod 256; x / 16777216 mod 256].
Definition fallback_getbytes (rnd : nat -> N) (size : N) : option (list N) :=
  let hashes := to_int32 (Z.of_N size) in
  if (hashes <? 0)%Z then None (* the multiplication gives 2^64 - 4|hashes| bytes: malloc fails *)
  else if (4 * hashes <? Z.of_N size)%Z then None
  else Some (firstn (N.to_nat size) (flat_map (fun i => word_bytes (rnd i)) (seq 0 (Z.to_nat hashes)))).

(* entropy.pyx:20-27 compute_numel (products past 2^63 are not modelled) *)
Definition compute_numel (s : size) : Z :=
  match s with SzNone => 0 | SzInt n => n | SzTuple l => fold_right Z.mul 1 l end%Z.
(* the value: a scalar or an array of the given shape *)
Inductive result := RScalar (v : N) | RArray (shape : list Z) (l : list N).
Definition words_of_bytes (bs : list N) : list N := words_from false 4 (List.length bs / 4) bs.
(* the reshape of n elements: size is an integer or a tuple of the same product *)
Definition shape_of (s : size) : list Z := match s with SzNone => [] | SzInt n => [n] | SzTuple l => l end.
Inductive source := SrcSystem | SrcFallback | SrcAuto | SrcOther.
(* entropy.pyx:114-190. sys size: what entropy_getbytes does (success and buffer);
   fb size: entropy_fallback_getbytes. The test sentinels are off. The outer None:
   undefined behaviour. "&randoms[0]" of an array without elements is a
   bounds-checked access: IndexError. On failure with source "auto" the function
   calls itself with source "fallback", which never fails. *)
Definition read_size (s : size) : outcome N :=
  match s with
  | SzNone => Ok 4
  | _ => let n := compute_numel s in if (n <? 0)%Z then Raise ValueError else if (n =? 0)%Z then Raise IndexError else Ok (4 * Z.to_N n)
  end.
Definition deliver (s : size) (buf : list N) : result :=
  match s with SzNone => RScalar (hd 0 (words_of_bytes buf)) | _ => RArray (shape_of s) (words_of_bytes buf) end.
Definition random_entropy (sys : N -> bool * list N) (fb : N -> option (list N)) (s : size) (src : source) : option (outcome result) :=
  match src with
  | SrcOther => Some (Raise ValueError)
  | _ =>
      match read_size s with
      | Raise e => Some (Raise e)
      | Ok sz =>
          let use_fb := match fb sz with None => None | Some buf => Some (Ok (deliver s buf)) end in
          match src with
          | SrcFallback => use_fb
          | _ => let '(ok, buf) := sys sz in
                 if ok then Some (Ok (deliver s buf))
                 else match src with SrcAuto => use_fb | _ => Some (Raise RuntimeErr) end
          end
      end
  end.

(* ------------------------------------------------------------------ facts *)
Lemma sm_mix_wf z : wf 64 z -> wf 64 (sm_mix z).
Proof. intros H. unfold sm_mix. auto using wf_lxor, wf_shr, wf_wmul. Qed.
Lemma sm_mix_inj a b : wf 64 a -> wf 64 b -> sm_mix a = sm_mix b -> a = b.
Proof.
  intros Ha Hb H. unfold sm_mix in H. apply xsr_inj in H; [|lia].
  rewrite !(wmul_comm 64 _ 0x94d049bb133111eb) in H. apply odd_mul_inj in H; [|reflexivity|auto using wf_lxor, wf_shr, wf_wmul..].
  apply xsr_inj in H; [|lia]. rewrite !(wmul_comm 64 _ 0xbf58476d1ce4e5b9) in H. apply odd_mul_inj in H; [|reflexivity|auto using wf_lxor, wf_shr..].
  apply xsr_inj in H; [exact H|lia].
Qed.
Lemma splitmix_inj a b : wf 64 a -> wf 64 b -> snd (splitmix64_next a) = snd (splitmix64_next b) -> a = b.
Proof.
  intros Ha Hb H. unfold splitmix64_next in H. cbn [snd] in H. apply sm_mix_inj in H; [|apply wf_wadd..]. now apply wadd_inj_r in H.
Qed.
Lemma sm_outs_length k : forall seed c, List.length (sm_outs k seed c) = k.
Proof. induction k as [|k IH]; intros seed c; [reflexivity|]. cbn [sm_outs]. unfold splitmix64_next. cbn [List.length]. now rewrite IH. Qed.
Lemma sm_outs_wf k : forall seed c, Forall (wf 64) (sm_outs k seed c).
Proof. induction k as [|k IH]; intros seed c; [constructor|]. cbn [sm_outs]. unfold splitmix64_next. constructor; [apply sm_mix_wf, wf_wadd|apply IH]. Qed.

Lemma sba_prefix k : forall seed n loc c st, List.length st = n -> (loc + k = n)%nat ->
  sba_loop k seed n loc c st = Some (firstn loc st ++ sm_outs k seed c)%list.
Proof.
  induction k as [|k IH]; intros seed n loc c st L E; cbn [sba_loop sm_outs].
  - rewrite app_nil_r, firstn_all2 by lia. reflexivity.
  - destruct (splitmix64_next _) as [c2 v]. replace (Nat.ltb loc (List.length st)) with true by (symmetry; apply Nat.ltb_lt; lia).
    destruct (Nat.eqb_spec (S loc) n) as [Q|Q].
    + replace k with 0%nat by lia. cbn [sba_loop sm_outs]. rewrite skipn_all2 by lia. reflexivity.
    + rewrite IH; [|rewrite app_length, firstn_length; cbn [List.length]; rewrite skipn_length; lia|lia].
      f_equal. rewrite firstn_app, firstn_firstn, firstn_length_le by lia. replace (Nat.min (S loc) loc) with loc by lia.
      replace (S loc - loc)%nat with 1%nat by lia. cbn [firstn]. rewrite <- app_assoc. reflexivity.
Qed.
(* the final seed_copy after k rounds *)
Fixpoint sm_last (k : nat) (seed : list N) (c : N) : N :=
  match k with
  | O => c
  | S k => sm_last k (List.tl seed) (fst (splitmix64_next (match seed with [] => c | x :: _ => N.lxor c x end)))
  end.
Lemma sba_pass k : forall t seed n loc c st, k <> 0%nat -> List.length st = n -> (loc + k = n)%nat ->
  sba_loop (k + t) seed n loc c st = sba_loop t (skipn k seed) n 0 (sm_last k seed c) (firstn loc st ++ sm_outs k seed c)%list.
Proof.
  induction k as [|k IH]; intros t seed n loc c st K L E; [lia|]. cbn [Nat.add sba_loop sm_outs sm_last].
  destruct (splitmix64_next _) as [c2 v]. cbn [fst]. replace (Nat.ltb loc (List.length st)) with true by (symmetry; apply Nat.ltb_lt; lia).
  assert (S1 : skipn (S k) seed = skipn k (List.tl seed)) by (destruct seed; [now rewrite !skipn_nil|reflexivity]). rewrite S1.
  destruct (Nat.eqb_spec (S loc) n) as [Q|Q].
  - replace k with 0%nat by lia. cbn [Nat.add sm_outs sm_last]. rewrite (skipn_all2 st) by lia. reflexivity.
  - rewrite (IH t (List.tl seed) n (S loc) c2); [|lia|rewrite app_length, firstn_length; cbn [List.length]; rewrite skipn_length; lia|lia].
    f_equal. rewrite firstn_app, firstn_firstn, firstn_length_le by lia. replace (Nat.min (S loc) loc) with loc by lia.
    replace (S loc - loc)%nat with 1%nat by lia. cbn [firstn]. rewrite <- app_assoc. reflexivity.
Qed.
Lemma sba_short seed n g : List.length g = n -> (List.length seed <= n)%nat -> sba_words seed n g = Some (sm_outs n seed 0).
Proof.
  intros G L. unfold sba_words. destruct (Nat.ltb_spec (List.length seed) n) as [H|H].
  - rewrite sba_prefix by lia. reflexivity.
  - replace (List.length seed) with n by lia. rewrite sba_prefix by lia. reflexivity.
Qed.
Lemma sba_total t : forall seed n loc c st, (loc < n)%nat -> List.length st = n ->
  exists l, sba_loop t seed n loc c st = Some l /\ List.length l = n /\ (Forall (wf 64) st -> Forall (wf 64) l).
Proof.
  induction t as [|t IH]; intros seed n loc c st Hl L; cbn [sba_loop]; [now exists st|].
  destruct (splitmix64_next _) as [c2 v] eqn:E. replace (Nat.ltb loc (List.length st)) with true by (symmetry; apply Nat.ltb_lt; lia).
  destruct (IH (List.tl seed) n (if Nat.eqb (S loc) n then 0%nat else S loc) c2 (firstn loc st ++ v :: skipn (S loc) st)%list) as (l & E1 & L1 & W1).
  - destruct (Nat.eqb_spec (S loc) n); lia.
  - rewrite app_length, firstn_length. cbn [List.length]. rewrite skipn_length. lia.
  - exists l. split; [exact E1|]. split; [exact L1|]. intros W. apply W1. apply Forall_app. split; [now apply Forall_firstn|]. constructor; [|now apply Forall_skipn].
    unfold splitmix64_next in E. injection E as _ <-. apply sm_mix_wf, wf_wadd.
Qed.
Lemma sba_no_garbage seed n g g' : n <> 0%nat -> List.length g = n -> List.length g' = n -> sba_words seed n g = sba_words seed n g'.
Proof.
  intros Hn G G'. unfold sba_words. set (t := if Nat.ltb (List.length seed) n then n else List.length seed).
  assert (T : (n <= t)%nat) by (subst t; destruct (Nat.ltb_spec (List.length seed) n); lia).
  replace t with (n + (t - n))%nat by lia. rewrite !(sba_pass n) by lia. reflexivity.
Qed.
Lemma sm_outs_inj n : forall l m c, wf 64 c -> Forall (wf 64) l -> Forall (wf 64) m -> List.length l = List.length m -> (List.length l <= n)%nat ->
  sm_outs n l c = sm_outs n m c -> l = m.
Proof.
  induction n as [|n IH]; intros l m c Hc Hl Hm E L Q.
  - destruct l, m; try (cbn in *; lia). reflexivity.
  - destruct l as [|x l], m as [|y m]; try (cbn in E; lia); [reflexivity|]. cbn [sm_outs List.tl] in Q.
    inversion Hl; subst. inversion Hm; subst.
    assert (X : N.lxor c x = N.lxor c y).
    { apply splitmix_inj; [now apply wf_lxor|now apply wf_lxor|]. destruct (splitmix64_next (N.lxor c x)), (splitmix64_next (N.lxor c y)). cbn [snd]. congruence. }
    apply lxor_inj_l in X. subst y. f_equal. destruct (splitmix64_next (N.lxor c x)) as [c2 v] eqn:E2. apply (IH l m c2).
    + unfold splitmix64_next in E2. injection E2 as <- _. apply wf_wadd.
    + assumption.
    + assumption.
    + cbn in E. lia.
    + cbn in L. lia.
    + congruence.
Qed.
