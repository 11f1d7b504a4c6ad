(* Squares: model of src/squares/squares.h and of squares.pyx *)
From Verif Require Import Word Arr Buffer32 Py Half MultiWord.
From Coq Require Import String ZifyBool ZifyNat ZifyN Permutation.
Open Scope N_scope.

(* -------------------------------------------------------------- generator *)
(* key, counter and the variant (true: 64, false: 32); squares.h:6-12 and the
   attributes variant, _use64 of the class, which always agree *)
Record squares := SQ { sq_key : N; sq_ctr : N; sq_v64 : bool }.
(* (x >> 32) | (x << 32) *)
Definition half_swap (x : N) : N := N.lor (N.shiftr x 32) (wshl 64 x 32).
(* x * x + y *)
Definition sqr (x y : N) : N := wadd 64 (wmul 64 x x) y.
(* squares.h:14-27; the counter is passed in, squares32 also increments it *)
Definition squares32_out (key ctr : N) : N :=
  let y := wmul 64 ctr key in
  let z := wadd 64 y key in
  let x := half_swap (sqr y y) in
  let x := half_swap (sqr x z) in
  let x := half_swap (sqr x y) in
  N.shiftr (sqr x z) 32.
(* squares.h:29-43 *)
Definition squares64_out (key ctr : N) : N :=
  let y := wmul 64 ctr key in
  let z := wadd 64 y key in
  let x := half_swap (sqr y y) in
  let x := half_swap (sqr x z) in
  let x := half_swap (sqr x y) in
  let t := sqr x z in
  let x := half_swap t in
  N.lxor t (N.shiftr (sqr x y) 32).
Definition sq_incr (s : squares) : squares := SQ (sq_key s) (wadd 64 (sq_ctr s) 1) (sq_v64 s).
Definition squares32 (s : squares) : squares * N := (sq_incr s, squares32_out (sq_key s) (sq_ctr s)).
Definition squares64 (s : squares) : squares * N := (sq_incr s, squares64_out (sq_key s) (sq_ctr s)).
(* squares.h:63-65: two calls in one expression, in either order (lr: the left
   one, which gives the low half, first) *)
Definition squares_32_next64 (lr : bool) (s : squares) : squares * N :=
  let '(s1, u) := squares32 s in
  let '(s2, v) := squares32 s1 in
  (s2, if lr then N.lor u (wshl 64 v 32) else N.lor v (wshl 64 u 32)).

(* The class: _bitgen.next_raw = next_uint64 and next_uint32 as selected by
   _setup_bitgen, squares.pyx:448-458 *)
Notation sqpy := (buffered squares).
Definition sq_raw_core (lr : bool) (s : squares) : squares * N :=
  if sq_v64 s then squares64 s else squares_32_next64 lr s.
Definition sq_raw (lr : bool) (b : sqpy) : sqpy * N := b_next64 (sq_raw_core lr) b.
Definition sq_next32 (b : sqpy) : sqpy * N :=
  if sq_v64 (core b) then b_next32 squares64 b
  else let '(a, v) := squares32 (core b) in (Buf a (has32 b) (u32 b), v).

(* squares.pyx:551-570 *)
Definition sq_advance (delta : N) (b : sqpy) : sqpy :=
  reset32 (Buf (SQ (sq_key (core b)) (wadd 64 (sq_ctr (core b)) delta) (sq_v64 (core b))) (has32 b) (u32 b)).

(* squares.pyx:515-531 *)
Definition sq_get (b : sqpy) : pyval :=
  PDict [("bit_generator", PStr "randomgen.squares.Squares");
         ("state", PDict [("key", PInt (Z.of_N (sq_key (core b)))); ("counter", PInt (Z.of_N (sq_ctr (core b))))]);
         ("variant", PInt (if sq_v64 (core b) then 64 else 32));
         ("has_uint32", bool_int (has32 b));
         ("uinteger", PInt (Z.of_N (u32 b)))]%string.
(* squares.pyx:533-549: has_uint32 and uinteger are not read *)
Definition sq_set (v : pyval) : M sqpy unit := (
  lift (preamble "Squares" "randomgen.squares.Squares" v);;
  st <- lift (getitem v "state");;
  k <- lift (obind (getitem st "key") (to_uint 64));;
  modify (fun b => set_core (SQ k (sq_ctr (core b)) (sq_v64 (core b))) b);;
  c <- lift (obind (getitem st "counter") (to_uint 64));;
  modify (fun b => set_core (SQ (sq_key (core b)) c (sq_v64 (core b))) b);;
  va <- lift (getitem v "variant");;
  match va with
  | PInt z => if ((z =? 64) || (z =? 32))%Z
              then modify (fun b => set_core (SQ (sq_key (core b)) (sq_ctr (core b)) (z =? 64)%Z) b)
              else lift (Raise ValueError)
  | _ => lift (Raise ValueError)
  end)%py.

(* squares.pyx:572-608. The new object is built from a copy of the seed (fresh:
   any object), then assigned the state of self. None: ValueError *)
Definition sq_step : N := 11400714819323198485.
Definition sq_jumped (fresh : sqpy) (n : Z) (b : sqpy) : option sqpy :=
  if (n <=? 0)%Z then None
  else Some (let r := reset32 (fst (sq_set (sq_get b) fresh)) in
             N.iter (Z.to_N n) (fun r => set_core (SQ (sq_key (core r)) (wadd 64 (sq_ctr (core r)) sq_step) (sq_v64 (core r))) r) r).

(* --------------------------------------------------------- key generation *)
(* _SequenceSampler, squares.pyx:65-147. gs n: what seed_seq.generate_state(n,
   uint64) returns. boundscheck is off, so an index past the end reads outside
   the buffer: Oob. Fuel: the number of calls of gen_bits is limited to the
   fuel, and the result is Stuck when it runs out (the loops draw until a
   condition holds and need not end). *)
Inductive res (A : Type) := Val (a : A) | Oob | Stuck.
Arguments Val {A}. Arguments Oob {A}. Arguments Stuck {A}.
Record sampler := Sam { drawn : N; widx : N; well : list N; bits : N; loc : N }.
Section Sampler.
  Variable gs : N -> list N.
  Definition S (A : Type) := nat * sampler -> res (A * (nat * sampler)).
  Definition sret {A} (a : A) : S A := fun st => Val (a, st).
  Definition sbind {A B} (m : S A) (f : A -> S B) : S B :=
    fun st => match m st with Val (a, st') => f a st' | Oob => Oob | Stuck => Stuck end.
  (* squares.pyx:86-95 *)
  Definition refill (s : sampler) : option sampler :=
    match rd (well s) (Z.of_N (widx s)) with
    | None => None
    | Some b =>
        let i := widx s + 1 in
        Some (if drawn s <? i then Sam (2 * drawn s) i (gs (2 * drawn s)) b 0 else Sam (drawn s) i (well s) b 0)
    end.
  (* squares.pyx:75-84 *)
  Definition sampler_new (n : N) : option sampler := refill (Sam n 0 (gs n) 0 0).
  (* squares.pyx:97-106 *)
  Definition gen_bits (n : N) : S N := fun '(fuel, s) =>
    match fuel with
    | O => Stuck
    | Datatypes.S fuel =>
        match (if 64 <? loc s + n then refill s else Some s) with
        | None => Oob
        | Some s => Val (N.land (bits s) (N.ones n), (fuel, Sam (drawn s) (widx s) (well s) (N.shiftr (bits s) n) (loc s + n)))
        end
    end.
  (* the loop at squares.pyx:126-129 (and 182-183): at most k tries; Stuck if
     none succeeds (k = fuel is enough: every try costs fuel) *)
  Fixpoint until (k : nat) (n : N) (ok : N -> bool) : S N :=
    match k with
    | O => fun _ => Stuck
    | Datatypes.S k => sbind (gen_bits n) (fun v => if ok v then sret v else until k n ok)
    end.
  Definition draw_until (n : N) (ok : N -> bool) : S N := fun st => until (Datatypes.S (fst st)) n ok st.
  (* squares.pyx:108-129 *)
  Definition random_interval (m : N) : S N :=
    if m =? 1 then sret 0
    else if m =? 2 then gen_bits 1
    else draw_until (if m <? 4 then 2 else if m <? 8 then 3 else 4) (fun v => v <? m).
  (* array[i], array[j] = array[j], array[i] *)
  Definition swap (l : list N) (i j : nat) : list N := upd (upd l i (nth j l 0)) j (nth i l 0).
  (* squares.pyx:131-143, for the 16-element array; k elements are left *)
  Fixpoint shuffle_from (k : nat) (i : nat) (l : list N) : S (list N) :=
    match k with
    | O => sret l
    | Datatypes.S k => sbind (random_interval (N.of_nat (16 - i)))
                             (fun r => shuffle_from k (Datatypes.S i) (swap l i (i + N.to_nat r)))
    end.
  Definition words16 : list N := [0; 1; 2; 3; 4; 5; 6; 7; 8; 9; 10; 11; 12; 13; 14; 15].
  Definition shuffle : S (list N) := shuffle_from 15 0 words16.
  (* squares.pyx:161-166 on the first eight elements *)
  Definition fix_even (l : list N) : list N :=
    match l with
    | t0 :: rest => if N.odd t0 then l else (t0 + 1) :: map (fun x => if x =? t0 + 1 then t0 else x) rest
    | [] => []
    end.
  (* squares.pyx:167-168 and 185: out |= d << 4 i *)
  Fixpoint or_digits (out : N) (i : N) (l : list N) : N :=
    match l with [] => out | d :: l => or_digits (N.lor out (wshl 64 d (4 * i))) (i + 1) l end.
  (* squares.pyx:180-185 *)
  Fixpoint upper (k : nat) (i last out : N) : S N :=
    match k with
    | O => sret out
    | Datatypes.S k => sbind (draw_until 4 (fun v => negb ((v =? last) || (v =? 0))))
                             (fun v => upper k (i + 1) v (N.lor out (wshl 64 v (4 * i))))
    end.
  (* squares.pyx:150-187 *)
  Definition generate_key : S N :=
    sbind shuffle (fun l =>
      let tmp := fix_even (firstn 8 l) in
      upper 8 8 (nth 7 tmp 0) (or_digits 0 0 tmp)).
  Fixpoint gen_n (n : nat) : S (list N) :=
    match n with
    | O => sret []
    | Datatypes.S n => sbind generate_key (fun k => sbind (gen_n n) (fun ks => sret (k :: ks)))
    end.
  (* np.unique with return_index, sorted: the first occurrences, in order *)
  Fixpoint firsts (seen l : list N) : list N :=
    match l with
    | [] => []
    | x :: l => if existsb (N.eqb x) seen then firsts seen l else x :: firsts (x :: seen) l
    end.
  (* squares.pyx:286-308; at most k rounds *)
  Fixpoint fill (k : nat) (n : nat) (keep : list N) : S (list N) :=
    match k with
    | O => fun _ => Stuck
    | Datatypes.S k =>
        sbind (gen_n (n - List.length keep)) (fun new =>
          let out := keep ++ new in
          let u := firsts [] out in
          if (List.length u =? n)%nat then sret out else fill k n u)
    end.
  (* squares.pyx:190-310, _test_sentinal off; None: ValueError. The sampler's
     initial draw is an int: 10 * n must fit. *)
  Definition generate_keys (fuel : nat) (n : Z) (unique : bool) : option (res (list N)) :=
    if (n <? 1)%Z then None
    else Some (match sampler_new (Z.to_N (10 * n)) with
               | None => Oob
               | Some s => match (if unique then fill fuel (Z.to_nat n) [] else gen_n (Z.to_nat n)) (fuel, s) with
                           | Val (l, _) => Val l | Oob => Oob | Stuck => Stuck end
               end).
  (* squares.pyx:471-474, with the default initial draw of 10 *)
  Definition key_from_seq (fuel : nat) : res N :=
    match sampler_new 10 with
    | None => Oob
    | Some s => match generate_key (fuel, s) with Val (k, _) => Val k | Oob => Oob | Stuck => Stuck end
    end.
End Sampler.
(* squares.pyx:480-513: seeding with a key, or with the key from the sequence;
   the variant is set by __init__ *)
Definition sq_seed (key counter : N) (v64 : bool) (b : sqpy) : sqpy := reset32 (Buf (SQ key counter v64) (has32 b) (u32 b)).
