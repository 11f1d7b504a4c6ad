(* dSFMT: model of src/dsfmt/dsfmt.h, dsfmt.c, dSFMT-common.h, dSFMT-jump.c,
   dSFMT-params19937.h and dsfmt.pyx. A w128_t is a number below 2^128, u[0] its low
   half; a double is given by its bits. Little-endian; the Altivec recursion
   is not modelled. *)
From Verif Require Import Word Arr Py Lagged LaggedBuf JumpN SfmtSeed Sfmt.
From Coq Require Import String ZifyBool ZifyNat ZifyN.
Open Scope N_scope.

Definition dlo (x : N) : N := trunc 64 x.
Definition dhi (x : N) : N := trunc 64 (N.shiftr x 64).
Definition dw (lo hi : N) : N := N.lxor lo (N.shiftl hi 64).
(* dSFMT-params19937.h:8-9; dSFMT-params.h: DSFMT_SR = 12 *)
Definition d_msk1 : N := 0x000ffafffffffb3f.
Definition d_msk2 : N := 0x000ffdfffc90fffd.
(* (L >> 32) ^ (L << 32) *)
Definition d_swap (l : N) : N := N.lxor (N.shiftr l 32) (wshl 64 l 32).
(* dSFMT-common.h:101-116 do_recursion: the new lung and the result. t0 << 19 ^ (L1 >> 32)
   ^ (L1 << 32) ^ b->u[0] *)
Definition d_lung (a b u : N) : N :=
  dw (N.lxor (N.lxor (N.lxor (wshl 64 (dlo a) 19) (N.shiftr (dhi u) 32)) (wshl 64 (dhi u) 32)) (dlo b))
     (N.lxor (N.lxor (N.lxor (wshl 64 (dhi a) 19) (N.shiftr (dlo u) 32)) (wshl 64 (dlo u) 32)) (dhi b)).
Definition d_out (a lung : N) : N :=
  dw (N.lxor (N.lxor (N.shiftr (dlo lung) 12) (N.land (dlo lung) d_msk1)) (dlo a))
     (N.lxor (N.lxor (N.shiftr (dhi lung) 12) (N.land (dhi lung) d_msk2)) (dhi a)).
Definition ds_f (a b c d u : N) : N := d_out a (d_lung a b u).
Definition ds_g (a b c d u : N) : N := d_lung a b u.
(* dSFMT-common.h:77-92, SSE2: _mm_slli_epi64, _mm_srli_epi64 and _mm_shuffle_epi32 by
   0x1b, which reverses the four 32-bit lanes *)
Definition epi64 (f : N -> N) (x : N) : N := dw (f (dlo x)) (f (dhi x)).
Definition d_shuffle (x : N) : N := join4 (lane 3 x) (lane 2 x) (lane 1 x) (lane 0 x).
Definition d_lung_sse (x b u : N) : N :=
  let z := epi64 (fun w => wshl 64 w 19) x in
  let y := d_shuffle u in
  let z := N.lxor z b in
  N.lxor y z.
Definition ds_f_sse (x b c d u : N) : N :=
  let y := d_lung_sse x b u in
  let v := epi64 (fun w => N.shiftr w 12) y in
  let w := N.land y (dw d_msk1 d_msk2) in
  let v := N.lxor v x in
  N.lxor v w.
Definition ds_g_sse (x b c d u : N) : N := d_lung_sse x b u.

(* DSFMT_N = 191, DSFMT_POS1 = 117 *)
Definition dsK : nat := 191.
Definition dsP : nat := 117.
(* the assertions of dsfmt.c:445-446 are on constants and hold *)
Definition ds_fine (idx : Z) : bool := true.
(* dsfmt.h:652-662 dsfmt_next_buffer and 687-691 dsfmt_next_raw: the bits of the double *)
Definition ds_next : lb -> option (lb * N) := lb_next dsK dsP ds_f ds_g ds_fine.
Definition ds_draws : nat -> lb -> option (lb * list N) := lb_draws dsK dsP ds_f ds_g ds_fine.
(* dsfmt.h:668-677 dsfmt_next64 *)
Definition ds_next64 (s : lb) : option (lb * N) :=
  match ds_next s with
  | None => None
  | Some (s1, u) => match ds_next s1 with
                    | None => None
                    | Some (s2, v) => Some (s2, N.lor (wshl 64 (N.shiftr u 16) 32) (N.land (N.shiftr v 16) 0xffffffff))
                    end
  end.
(* dsfmt.h:679-685 dsfmt_next32 *)
Definition ds_next32 (s : lb) : option (lb * N) :=
  match ds_next s with Some (s1, u) => Some (s1, trunc 32 (N.land (N.shiftr u 16) 0xffffffff)) | None => None end.

(* ------------------------------------------------ seeding *)
(* dsfmt.c:321-329 initial_mask *)
Definition d_mask64 (x : N) : N := N.lor (N.land x 0x000FFFFFFFFFFFFF) 0x3FF0000000000000.
Definition d_mask (x : N) : N := dw (d_mask64 (dlo x)) (d_mask64 (dhi x)).
Definition fold64 (x : N) : N := fold_bits (N.lxor x (N.shiftr x 32)).
(* dsfmt.c:335-374 period_certification: the lung *)
Definition d_inner (u : N) : N :=
  fold64 (N.lxor (N.land (N.lxor (dlo u) 0x90014964b32f4329) 0x3d84e1ac0dc82880) (N.land (N.lxor (dhi u) 0x3b8d12ac548a7c7a) 1)).
Definition d_certify (u : N) : N := if d_inner u =? 1 then u else dw (dlo u) (N.lxor (dhi u) 1).
(* dsfmt.c:546-615 dsfmt_chk_init_by_array: the array and the lung *)
Definition ds_init_by_array (key : list N) : list N * N :=
  let q := quads (ini_words 768 key) in
  (map d_mask (firstn 191 q), d_certify (nth 191 q 0)).
(* dsfmt.pyx:138-147; the buffer keeps its contents *)
Definition ds_seed (words : list N) (s : lb) : lb :=
  let '(st, u) := ds_init_by_array words in LB st u 382 (lb_buf s) 382.
(* dsfmt.pyx:117-124 *)
Definition ds_new (words : list N) : lb := ds_seed words (LB [] 0 0 (repeat 0 382) 382).

(* ------------------------------------------------ jumps *)
(* dSFMT-jump.c:149-180; add_fix finds no entry for 19937 in fix_table and does nothing *)
Definition ds_jump : list bool -> lb -> option lb := lb_jump dsK dsP ds_f ds_g.
(* dsfmt.pyx:173-188 *)
Definition ds_jump_py (ps : polys) (iter : Z) (s : lb) : option (outcome lb) :=
  if (iter <? 0)%Z then Some (Raise ValueError)
  else if (2 ^ 31 <=? iter)%Z then Some (Raise OverflowError)
  else match jump_n ds_jump ps (Z.to_nat iter) iter s with
       | Some s => Some (Ok (lb_reset dsK s))
       | None => None
       end.

(* ------------------------------------------------ state *)
(* the words as u[0], u[1]; and back *)
Fixpoint pairs (l : list N) : list N :=
  match l with
  | a :: b :: l => dw a b :: pairs l
  | _ => []
  end.
(* dsfmt.pyx:240-268; an array of doubles is given by the bits of its elements *)
Definition ds_get (s : lb) : pyval :=
  PDict [("bit_generator", PStr "randomgen.dsfmt.DSFMT");
         ("state", PDict [("state", PArr 64 (halves (lb_st s) ++ halves [lb_u s])%list); ("idx", PInt (lb_idx s))]);
         ("buffer_loc", PInt (lb_loc s));
         ("buffered_uniforms", PArr 64 (lb_buf s))]%string.
(* dsfmt.pyx:286-290: element by element; an array of doubles that is too short raises
   IndexError after its elements have been stored. Other sequences than arrays of
   doubles are not modelled *)
Definition ds_set_buf (v : pyval) : M lb unit :=
  match v with
  | PArr 64 l =>
      (modify (fun s => LB (lb_st s) (lb_u s) (lb_idx s) (firstn 382 l ++ skipn (List.length l) (lb_buf s))%list (lb_loc s));;
       if (382 <=? List.length l)%nat then ret tt else lift (Raise IndexError))%py
  | _ => lift (Raise TypeError)
  end.
(* dsfmt.pyx:270-290 *)
Definition ds_set (v : pyval) : M lb unit := (
  lift (preamble "DSFMT" "randomgen.dsfmt.DSFMT" v);;
  w <- lift (obind (obind (getitem v "state") (fun st => getitem st "state")) (check_arr 384 64));;
  modify (fun s => LB (firstn 191 (pairs w)) (nth 191 (pairs w) 0) (lb_idx s) (lb_buf s) (lb_loc s));;
  i <- lift (obind (obind (getitem v "state") (fun st => getitem st "idx")) to_cint);;
  modify (fun s => LB (lb_st s) (lb_u s) i (lb_buf s) (lb_loc s));;
  b <- lift (getitem v "buffered_uniforms");;
  ds_set_buf b;;
  p <- lift (obind (getitem v "buffer_loc") to_cint);;
  modify (fun s => LB (lb_st s) (lb_u s) (lb_idx s) (lb_buf s) p))%py.
