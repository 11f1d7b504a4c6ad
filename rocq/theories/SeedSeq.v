(* SeedSequence: model of randomgen/_seed_sequence.pyx *)
From Verif Require Import Word Arr.
From Coq Require Import ZifyBool ZifyNat ZifyN.
Open Scope N_scope.

(* _seed_sequence.pyx:58-65 *)
Definition INIT_A : N := 0x43b0d7e5.
Definition MULT_A : N := 0x931e8875.
Definition INIT_B : N := 0x8b51f9dd.
Definition MULT_B : N := 0x58f38ded.
Definition MIX_MULT_L : N := 0xca01f9dd.
Definition MIX_MULT_R : N := 0x4973f715.

(* _seed_sequence.pyx:69-81 _int_to_uint32_array: None = ValueError for a
   negative integer. The while loop runs once per 32-bit word; its fuel is the
   number of bits of n, which is always enough (int_to_words_complete). *)
Fixpoint int_words (fuel : nat) (n : N) : list N :=
  match fuel with
  | O => []
  | S fuel => if n =? 0 then [] else N.land n 0xffffffff :: int_words fuel (n / 2 ^ 32)
  end.
Definition int_to_words (n : Z) : option (list N) :=
  if (n <? 0)%Z then None
  else if (n =? 0)%Z then Some [0]
  else Some (int_words (N.to_nat (N.size (Z.to_N n))) (Z.to_N n)).

(* _seed_sequence.pyx:84-152 _coerce_to_uint32_array, on integers, uint32 arrays
   and (nested) sequences of these. Strings are converted to integers first;
   SSeqPy.v models that conversion. *)
Inductive seedval := SInt (z : Z) | SArr32 (l : list N) | SSeq (l : list seedval).
Fixpoint coerce (x : seedval) : option (list N) :=
  match x with
  | SInt z => int_to_words z
  | SArr32 l => Some l
  | SSeq l => fold_right (fun v acc => match coerce v, acc with
                                       | Some a, Some b => Some (a ++ b)
                                       | _, _ => None
                                       end) (Some []) l
  end.

(* _seed_sequence.pyx:155-161 hashmix: value and updated hash constant *)
Definition hashmix (value hc : N) : N * N :=
  let value := N.lxor value hc in
  let hc := wmul 32 hc MULT_A in
  let value := wmul 32 value hc in
  (N.lxor value (N.shiftr value 16), hc).
(* _seed_sequence.pyx:163-166 *)
Definition mix (x y : N) : N :=
  let r := wsub 32 (wmul 32 MIX_MULT_L x) (wmul 32 MIX_MULT_R y) in
  N.lxor r (N.shiftr r 16).

(* _seed_sequence.pyx:350-357: the first loop of mix_entropy *)
Fixpoint fill_pool (n : nat) (ent : list N) (hc : N) : list N * N :=
  match n with
  | O => ([], hc)
  | S n =>
      let '(v, hc) := hashmix (hd 0 ent) hc in
      let '(r, hc) := fill_pool n (tl ent) hc in (v :: r, hc)
  end.
(* mixer[i_dst] = mix(mixer[i_dst], hashmix(e, hash_const)) *)
Definition mix_into (e : N) (dst : nat) (st : list N * N) : list N * N :=
  let '(mixer, hc) := st in
  let '(h, hc) := hashmix e hc in
  (upd mixer dst (mix (nth dst mixer 0) h), hc).
(* _seed_sequence.pyx:359-364: the second loop. hashmix reads mixer[i_src] each
   time; i_src itself is not written. *)
Definition mix_src (n : nat) (st : list N * N) (src : nat) : list N * N :=
  fold_left (fun st dst => if Nat.eqb src dst then st else mix_into (nth src (fst st) 0) dst st) (seq 0 n) st.
Definition mix_all (n : nat) (st : list N * N) : list N * N := fold_left (mix_src n) (seq 0 n) st.
(* _seed_sequence.pyx:366-371: remaining entropy *)
Definition mix_extra (n : nat) (st : list N * N) (e : N) : list N * N :=
  fold_left (fun st dst => mix_into e dst st) (seq 0 n) st.
(* _seed_sequence.pyx:337-371 *)
Definition mix_entropy (n : nat) (ent : list N) : list N :=
  fst (fold_left (mix_extra n) (skipn n ent) (mix_all n (fill_pool n ent INIT_A))).

(* _seed_sequence.pyx:373-398 get_assembled_entropy *)
Definition assemble (n : nat) (run key : list N) : list N :=
  (match key with [] => run | _ => run ++ repeat 0 (n - List.length run) end) ++ key.

(* _seed_sequence.pyx:400-446 generate_state, 32-bit words *)
Fixpoint gen32 (k : nat) (pool : list N) (i : nat) (hc : N) : list N :=
  match k with
  | O => []
  | S k =>
      let d := N.lxor (nth (i mod List.length pool) pool 0) hc in
      let hc := wmul 32 hc MULT_B in
      let d := wmul 32 d hc in
      N.lxor d (N.shiftr d 16) :: gen32 k pool (S i) hc
  end.
Definition generate32 (k : nat) (pool : list N) : list N := gen32 k pool 0 INIT_B.
(* the little-endian view as 64-bit words *)
Fixpoint pair64 (l : list N) : list N :=
  match l with
  | a :: b :: l => a + 2 ^ 32 * b :: pair64 l
  | _ => []
  end.
Definition generate64 (k : nat) (pool : list N) : list N := pair64 (generate32 (2 * k) pool).

(* the whole object: _seed_sequence.pyx:292-309 *)
Record seedseq := SS { ss_entropy : seedval; ss_key : list Z; ss_pool_size : nat; ss_children : Z }.
(* the pool computed by __init__; None if a ValueError is raised *)
Definition ss_pool (s : seedseq) : option (list N) :=
  if (ss_pool_size s <? 4)%nat then None
  else match coerce (ss_entropy s), coerce (SSeq (map SInt (ss_key s))) with
       | Some run, Some key => Some (mix_entropy (ss_pool_size s) (assemble (ss_pool_size s) run key))
       | _, _ => None
       end.
(* _seed_sequence.pyx:448-477 spawn. i is a C int, so a child number of 2^31 or more
   raises (OverflowError, or ValueError from the negative key it wraps to; both
   are None here); n_children_spawned is a uint32 attribute, so a sum outside
   [0, 2^32) raises as well. An exception leaves the object unchanged. *)
Definition spawn (n : Z) (s : seedseq) : option (seedseq * list seedseq) :=
  let from := ss_children s in
  let kids := map (fun j => SS (ss_entropy s) (ss_key s ++ [from + Z.of_nat j])%Z (ss_pool_size s) 0)
                  (seq 0 (Z.to_nat n)) in
  if ((n <=? 0) || (from + n <=? 2 ^ 31))%Z
  then if ((0 <=? from + n) && (from + n <? 2 ^ 32))%Z
       then Some (SS (ss_entropy s) (ss_key s) (ss_pool_size s) (from + n)%Z, kids)
       else None
  else None.
