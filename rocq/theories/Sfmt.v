(* SFMT: model of src/sfmt/sfmt.h, sfmt.c, sfmt-common.h, sfmt-sse2.h, sfmt-jump.c,
   sfmt-params19937.h and sfmt.pyx. A w128_t is a number below 2^128; little-endian. *)
From Verif Require Import Word Arr Buffer32 OptBuffer Py Half Lagged LaggedBuf JumpN SfmtSeed.
From Coq Require Import String ZifyBool ZifyNat ZifyN.
Open Scope N_scope.

(* the member u[j]; the word with the members a, b, c, d *)
Definition lane (j x : N) : N := trunc 32 (N.shiftr x (32 * j)).
Definition join4 (a b c d : N) : N := N.lxor a (N.lxor (N.shiftl b 32) (N.lxor (N.shiftl c 64) (N.shiftl d 96))).
Definition lo64 (x : N) : N := N.lor (wshl 64 (lane 1 x) 32) (lane 0 x).
Definition hi64 (x : N) : N := N.lor (wshl 64 (lane 3 x) 32) (lane 2 x).
Definition of64 (ol oh : N) : N := join4 (trunc 32 ol) (trunc 32 (N.shiftr ol 32)) (trunc 32 oh) (trunc 32 (N.shiftr oh 32)).
(* sfmt-common.h:60-73 rshift128 and 99-112 lshift128; shift = 1 *)
Definition rshift128 (x : N) : N := of64 (N.lor (N.shiftr (lo64 x) 8) (wshl 64 (hi64 x) 56)) (N.shiftr (hi64 x) 8).
Definition lshift128 (x : N) : N := of64 (wshl 64 (lo64 x) 8) (N.lor (wshl 64 (hi64 x) 8) (N.shiftr (lo64 x) 56)).
(* sfmt-params19937.h:10-13 *)
Definition msk (j : N) : N := if j =? 0 then 0xdfffffef else if j =? 1 then 0xddfecb7f else if j =? 2 then 0xbffaffff else 0xbffffff6.
(* sfmt-common.h:140-155 do_recursion *)
Definition rec_lane (j a x b y d : N) : N :=
  N.lxor (N.lxor (N.lxor (N.lxor (lane j a) (lane j x)) (N.land (N.shiftr (lane j b) 11) (msk j))) (lane j y)) (wshl 32 (lane j d) 18).
Definition sf_rec_c (a b c d : N) : N :=
  let x := lshift128 a in let y := rshift128 c in
  join4 (rec_lane 0 a x b y d) (rec_lane 1 a x b y d) (rec_lane 2 a x b y d) (rec_lane 3 a x b y d).
(* sfmt-sse2.h:31-45 mm_recursion: _mm_srli_epi32, _mm_srli_si128, _mm_slli_epi32, ... *)
Definition epi32 (f : N -> N) (x : N) : N := join4 (f (lane 0 x)) (f (lane 1 x)) (f (lane 2 x)) (f (lane 3 x)).
Definition sf_mask : N := join4 (msk 0) (msk 1) (msk 2) (msk 3).
Definition sf_rec_sse (a b c d : N) : N :=
  let y := epi32 (fun w => N.shiftr w 11) b in
  let z := N.shiftr c 8 in
  let v := epi32 (fun w => wshl 32 w 18) d in
  let z := N.lxor z a in
  let z := N.lxor z v in
  let x := wshl 128 a 8 in
  let y := N.land y sf_mask in
  let z := N.lxor z x in
  N.lxor z y.

(* SFMT_N = 156, SFMT_POS1 = 122; the scalar recursion *)
Definition sfK : nat := 156.
Definition sfP : nat := 122.
Definition sf_f (a b c d u : N) : N := sf_rec_c a b c d.
Definition sf_g (a b c d u : N) : N := 0.
(* sfmt.c:334-345: assert(sfmt->idx == SFMT_N32), when assertions are compiled in (dbg) *)
Definition sf_fine (dbg : bool) (idx : Z) : bool := negb dbg || (idx =? 624)%Z.
(* sfmt.h:320-329 *)
Definition sf_next (dbg : bool) : lb -> option (lb * N) := lb_next sfK sfP sf_f sf_g (sf_fine dbg).
Definition sf_draws (dbg : bool) : nat -> lb -> option (lb * list N) := lb_draws sfK sfP sf_f sf_g (sf_fine dbg).

(* ------------------------------------------------ seeding *)
(* the 32-bit words as w128_t, and back *)
Fixpoint quads (l : list N) : list N :=
  match l with
  | a :: b :: c :: d :: l => join4 a b c d :: quads l
  | _ => []
  end.
Definition unquads (l : list N) : list N := flat_map (fun x => [lane 0 x; lane 1 x; lane 2 x; lane 3 x]) l.
(* sfmt-params19937.h:14-17 *)
Definition parity (j : N) : N := if j =? 0 then 1 else if j =? 3 then 0x13c9e684 else 0.
Definition fold_bits (x : N) : N :=
  let x := N.lxor x (N.shiftr x 16) in let x := N.lxor x (N.shiftr x 8) in let x := N.lxor x (N.shiftr x 4) in
  let x := N.lxor x (N.shiftr x 2) in let x := N.lxor x (N.shiftr x 1) in N.land x 1.
(* sfmt.c:175-205 period_certification; the first word. The search for a bit of the
   parity ends at once, parity[0] being odd *)
Definition sf_inner (x : N) : N :=
  fold_bits (N.lxor (N.lxor (N.lxor (N.land (lane 0 x) (parity 0)) (N.land (lane 1 x) (parity 1))) (N.land (lane 2 x) (parity 2))) (N.land (lane 3 x) (parity 3))).
Definition sf_certify (st : list N) : list N :=
  match st with
  | [] => []
  | x :: st => (if sf_inner x =? 1 then x else N.lxor x 1) :: st
  end.
(* sfmt.c:376-439 *)
Definition sf_init_by_array (key : list N) : list N := sf_certify (quads (ini_words 624 key)).
Definition sfpy := buffered lb.
(* sfmt.pyx:137-147: words: the 624 generated words; the buffer keeps its contents *)
Definition sf_seed (words : list N) (b : sfpy) : sfpy := Buf (LB (sf_init_by_array words) 0 624 (lb_buf (core b)) 312) false 0.
(* sfmt.pyx:116-123: the buffer of a new object is zeroed; the state itself is not
   initialised before it is seeded *)
Definition sf_new (words : list N) : sfpy := sf_seed words (Buf (LB [] 0 0 (repeat 0 312) 312) false 0).

(* ------------------------------------------------ jumps *)
Definition sf_jump : list bool -> lb -> option lb := lb_jump sfK sfP sf_f sf_g.
(* sfmt.pyx:173-188 jump_inplace; iter is converted to a C int. None: out of bounds *)
Definition sf_jump_py (ps : polys) (iter : Z) (b : sfpy) : option (outcome sfpy) :=
  if (iter <? 0)%Z then Some (Raise ValueError)
  else if (2 ^ 31 <=? iter)%Z then Some (Raise OverflowError)
  else match jump_n sf_jump ps (Z.to_nat iter) iter (core b) with
       | Some s => Some (Ok (Buf (lb_reset sfK s) false 0))
       | None => None
       end.

(* ------------------------------------------------ state *)
(* sfmt.pyx:240-274 *)
Definition sf_get (b : sfpy) : pyval :=
  PDict [("bit_generator", PStr "randomgen.sfmt.SFMT");
         ("state", PDict [("state", PArr 32 (unquads (lb_st (core b)))); ("idx", PInt (lb_idx (core b)))]);
         ("buffer_loc", PInt (lb_loc (core b)));
         ("buffered_uint64", PArr 64 (lb_buf (core b)));
         ("has_uint32", bool_int (has32 b)); ("uinteger", PInt (Z.of_N (u32 b)))]%string.
(* sfmt.pyx:276-299 *)
Definition sf_set (v : pyval) : M sfpy unit := (
  lift (preamble "SFMT" "randomgen.sfmt.SFMT" v);;
  w <- lift (obind (obind (getitem v "state") (fun st => getitem st "state")) (check_arr 624 32));;
  modify (fun b => let s := core b in set_core (LB (quads w) (lb_u s) (lb_idx s) (lb_buf s) (lb_loc s)) b);;
  i <- lift (obind (obind (getitem v "state") (fun st => getitem st "idx")) to_cint);;
  modify (fun b => let s := core b in set_core (LB (lb_st s) (lb_u s) i (lb_buf s) (lb_loc s)) b);;
  l <- lift (obind (getitem v "buffered_uint64") (check_arr 312 64));;
  modify (fun b => let s := core b in set_core (LB (lb_st s) (lb_u s) (lb_idx s) l (lb_loc s)) b);;
  p <- lift (obind (getitem v "buffer_loc") to_cint);;
  modify (fun b => let s := core b in set_core (LB (lb_st s) (lb_u s) (lb_idx s) (lb_buf s) p) b);;
  set_half v)%py.
