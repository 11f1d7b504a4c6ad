(* Xoshiro256, Xoshiro512, Xoroshiro128, Xorshift1024 and LXM: models of the C
   engines and of the Cython classes around them. *)
From Verif Require Import Word Arr Buffer32 Gf2 Lcg Py.
From Verif Require Export Half.
From Coq Require Import String ZifyBool ZifyNat ZifyN.
Open Scope N_scope.

(* ------------------------------------------- shared pieces of the setters *)
(* jump_inplace of all these classes, e.g. xoshiro256.pyx:166-180: iter (a C
   npy_intp) times the C jump, none if iter is negative, then
   _reset_state_variables *)
Definition jump_buf {A} (jump : A -> A) (iter : Z) (b : buffered A) : buffered A :=
  Buf (N.iter (Z.to_N iter) jump (core b)) false 0.

(* ------------------------------------------------------------- Xoshiro256 *)
Record v4 := V4 { v4_0 : N; v4_1 : N; v4_2 : N; v4_3 : N }.
Definition v4_add (a b : v4) : v4 :=
  V4 (N.lxor (v4_0 a) (v4_0 b)) (N.lxor (v4_1 a) (v4_1 b))
     (N.lxor (v4_2 a) (v4_2 b)) (N.lxor (v4_3 a) (v4_3 b)).
Definition v4_zero : v4 := V4 0 0 0 0.
Definition v4_wf (a : v4) : Prop := wf 64 (v4_0 a) /\ wf 64 (v4_1 a) /\ wf 64 (v4_2 a) /\ wf 64 (v4_3 a).
Definition v4_words (a : v4) : list N := [v4_0 a; v4_1 a; v4_2 a; v4_3 a].
Definition v4_of (l : list N) : v4 := V4 (nth 0 l 0) (nth 1 l 0) (nth 2 l 0) (nth 3 l 0).

(* src/xoshiro256/xoshiro256.h:12-14 and 16-30: the state update. rotl k of
   src/*.h is (x << k) | (x >> (64 - k)) *)
Definition xoshiro256_step (s : v4) : v4 :=
  let t := wshl 64 (v4_1 s) 17 in
  let s2 := N.lxor (v4_2 s) (v4_0 s) in
  let s3 := N.lxor (v4_3 s) (v4_1 s) in
  let s1 := N.lxor (v4_1 s) s2 in
  let s0 := N.lxor (v4_0 s) s3 in
  let s2 := N.lxor s2 t in
  V4 s0 s1 s2 (rotl 64 s3 45).
Definition xoshiro256_out (s : v4) : N := wmul 64 (rotl 64 (wmul 64 (v4_1 s) 5) 7) 9.
Definition xoshiro256_next (s : v4) : v4 * N := (xoshiro256_step s, xoshiro256_out s).
(* src/xoshiro256/xoshiro256.c:32 *)
Definition XOSHIRO256_JUMP : list N :=
  [0x180ec6d33cfd0aba; 0xd5a61266f0c9392c; 0xa9582618e03fc9aa; 0x39abdc4529b1661c].
(* src/xoshiro256/xoshiro256.c:29-55 *)
Definition xoshiro256_jump (s : v4) : v4 :=
  jump_loop v4_add v4_zero xoshiro256_step 64 XOSHIRO256_JUMP s.

Definition xoshiro256 := buffered v4.
Definition xoshiro256_next64 : xoshiro256 -> xoshiro256 * N := b_next64 xoshiro256_next.
Definition xoshiro256_next32 : xoshiro256 -> xoshiro256 * N := b_next32 xoshiro256_next.
(* xoshiro256.pyx:132-138 _seed_from_seq, given generate_state(4, uint64) *)
Definition xoshiro256_seed (words : list N) : xoshiro256 := Buf (v4_of words) false 0.
(* xoshiro256.pyx:166-180 *)
Definition xoshiro256_jump_inplace : Z -> xoshiro256 -> xoshiro256 := jump_buf xoshiro256_jump.
(* xoshiro256.pyx:237-256 *)
Definition xoshiro256_get (s : xoshiro256) : pyval :=
  PDict [("bit_generator", PStr "randomgen.xoshiro256.Xoshiro256");
         ("s", PArr 64 (v4_words (core s)));
         ("has_uint32", bool_int (has32 s));
         ("uinteger", PInt (Z.of_N (u32 s)))]%string.
(* xoshiro256.pyx:258-272 *)
Definition xoshiro256_set (v : pyval) : M xoshiro256 unit := (
  lift (preamble "Xoshiro256" "randomgen.xoshiro256.Xoshiro256" v);;
  l <- lift (obind (getitem v "s") (check_arr 4 64));;
  modify (set_core (v4_of l));;
  set_half v)%py.
(* xoshiro256.pyx:210-235 jumped; [t]: the new instance before its state is set *)
Definition xoshiro256_jumped (iter : Z) (t s : xoshiro256) : xoshiro256 * outcome unit :=
  (xoshiro256_set (xoshiro256_get s);; modify (xoshiro256_jump_inplace iter))%py t.
Definition xoshiro256_wf (s : xoshiro256) : Prop := v4_wf (core s) /\ wf 32 (u32 s).

(* ------------------------------------------------------------- Xoshiro512 *)
Record v8 := V8 { v8_0 : N; v8_1 : N; v8_2 : N; v8_3 : N; v8_4 : N; v8_5 : N; v8_6 : N; v8_7 : N }.
Definition v8_add (a b : v8) : v8 :=
  V8 (N.lxor (v8_0 a) (v8_0 b)) (N.lxor (v8_1 a) (v8_1 b))
     (N.lxor (v8_2 a) (v8_2 b)) (N.lxor (v8_3 a) (v8_3 b))
     (N.lxor (v8_4 a) (v8_4 b)) (N.lxor (v8_5 a) (v8_5 b))
     (N.lxor (v8_6 a) (v8_6 b)) (N.lxor (v8_7 a) (v8_7 b)).
Definition v8_zero : v8 := V8 0 0 0 0 0 0 0 0.
Definition v8_wf (a : v8) : Prop :=
  wf 64 (v8_0 a) /\ wf 64 (v8_1 a) /\ wf 64 (v8_2 a) /\ wf 64 (v8_3 a) /\
  wf 64 (v8_4 a) /\ wf 64 (v8_5 a) /\ wf 64 (v8_6 a) /\ wf 64 (v8_7 a).
Definition v8_words (a : v8) : list N :=
  [v8_0 a; v8_1 a; v8_2 a; v8_3 a; v8_4 a; v8_5 a; v8_6 a; v8_7 a].
Definition v8_of (l : list N) : v8 :=
  V8 (nth 0 l 0) (nth 1 l 0) (nth 2 l 0) (nth 3 l 0) (nth 4 l 0) (nth 5 l 0) (nth 6 l 0) (nth 7 l 0).

(* src/xoshiro512/xoshiro512.h:18-38 *)
Definition xoshiro512_step (s : v8) : v8 :=
  let t := wshl 64 (v8_1 s) 11 in
  let s2 := N.lxor (v8_2 s) (v8_0 s) in
  let s5 := N.lxor (v8_5 s) (v8_1 s) in
  let s1 := N.lxor (v8_1 s) s2 in
  let s7 := N.lxor (v8_7 s) (v8_3 s) in
  let s3 := N.lxor (v8_3 s) (v8_4 s) in
  let s4 := N.lxor (v8_4 s) s5 in
  let s0 := N.lxor (v8_0 s) (v8_6 s) in
  let s6 := N.lxor (v8_6 s) s7 in
  let s6 := N.lxor s6 t in
  V8 s0 s1 s2 s3 s4 s5 s6 (rotl 64 s7 21).
Definition xoshiro512_out (s : v8) : N := wmul 64 (rotl 64 (wmul 64 (v8_1 s) 5) 7) 9.
Definition xoshiro512_next (s : v8) : v8 * N := (xoshiro512_step s, xoshiro512_out s).
(* src/xoshiro512/xoshiro512.c:35-38 *)
Definition XOSHIRO512_JUMP : list N :=
  [0x33ed89b6e7a353f9; 0x760083d7955323be; 0x2837f2fbb5f22fae; 0x4b8c5674d309511c;
   0xb11ac47a7ba28c25; 0xf1be7667092bcc1c; 0x53851efdb6df0aaf; 0x1ebbc8b23eaf25db].
(* src/xoshiro512/xoshiro512.c:32-51 *)
Definition xoshiro512_jump (s : v8) : v8 :=
  jump_loop v8_add v8_zero xoshiro512_step 64 XOSHIRO512_JUMP s.
Definition xoshiro512 := buffered v8.
Definition xoshiro512_next64 : xoshiro512 -> xoshiro512 * N := b_next64 xoshiro512_next.
Definition xoshiro512_next32 : xoshiro512 -> xoshiro512 * N := b_next32 xoshiro512_next.
(* xoshiro512.pyx:129-135 *)
Definition xoshiro512_seed (words : list N) : xoshiro512 := Buf (v8_of words) false 0.
(* xoshiro512.pyx:163-177 *)
Definition xoshiro512_jump_inplace : Z -> xoshiro512 -> xoshiro512 := jump_buf xoshiro512_jump.
(* xoshiro512.pyx:234-251 *)
Definition xoshiro512_get (s : xoshiro512) : pyval :=
  PDict [("bit_generator", PStr "randomgen.xoshiro512.Xoshiro512");
         ("s", PArr 64 (v8_words (core s)));
         ("has_uint32", bool_int (has32 s));
         ("uinteger", PInt (Z.of_N (u32 s)))]%string.
(* xoshiro512.pyx:253-265 *)
Definition xoshiro512_set (v : pyval) : M xoshiro512 unit := (
  lift (preamble "Xoshiro512" "randomgen.xoshiro512.Xoshiro512" v);;
  l <- lift (obind (getitem v "s") (check_arr 8 64));;
  modify (set_core (v8_of l));;
  set_half v)%py.
(* xoshiro512.pyx:207-232 *)
Definition xoshiro512_jumped (iter : Z) (t s : xoshiro512) : xoshiro512 * outcome unit :=
  (xoshiro512_set (xoshiro512_get s);; modify (xoshiro512_jump_inplace iter))%py t.
Definition xoshiro512_wf (s : xoshiro512) : Prop := v8_wf (core s) /\ wf 32 (u32 s).

(* ----------------------------------------------------------- Xoroshiro128 *)
Record v2 := V2 { v2_0 : N; v2_1 : N }.
Definition v2_add (a b : v2) : v2 := V2 (N.lxor (v2_0 a) (v2_0 b)) (N.lxor (v2_1 a) (v2_1 b)).
Definition v2_zero : v2 := V2 0 0.
Definition v2_wf (a : v2) : Prop := wf 64 (v2_0 a) /\ wf 64 (v2_1 a).
Definition v2_words (a : v2) : list N := [v2_0 a; v2_1 a].
Definition v2_of (l : list N) : v2 := V2 (nth 0 l 0) (nth 1 l 0).

(* src/xoroshiro128/xoroshiro128.h:18-29 and 31-41; pp: the ++ variant *)
Definition xoroshiro_step (pp : bool) (s : v2) : v2 :=
  let s0 := v2_0 s in
  let s1 := N.lxor (v2_1 s) s0 in
  if pp then V2 (N.lxor (N.lxor (rotl 64 s0 49) s1) (wshl 64 s1 21)) (rotl 64 s1 28)
  else V2 (N.lxor (N.lxor (rotl 64 s0 24) s1) (wshl 64 s1 16)) (rotl 64 s1 37).
Definition xoroshiro_out (pp : bool) (s : v2) : N :=
  if pp then wadd 64 (rotl 64 (wadd 64 (v2_0 s) (v2_1 s)) 17) (v2_0 s)
  else wadd 64 (v2_0 s) (v2_1 s).
(* src/xoroshiro128/xoroshiro128.c:47 and 68 *)
Definition XOROSHIRO_JUMP (pp : bool) : list N :=
  if pp then [0x2bd7a6a6e99c2ddc; 0x0992ccaf6a6fca05] else [0xdf900294d8f554a5; 0x170865df4b3201fc].
(* src/xoroshiro128/xoroshiro128.c:42-64 and 66-83 *)
Definition xoroshiro_jump (pp : bool) (s : v2) : v2 :=
  jump_loop v2_add v2_zero (xoroshiro_step pp) 64 (XOROSHIRO_JUMP pp) s.

(* The Python attribute _plusplus selects the C functions (xoroshiro128.pyx:
   138-148); every writer of it also calls _set_generators, so it determines
   them and is kept in the core. *)
Record xoroc := XC { xo_s : v2; xo_pp : bool }.
Definition xoroc_next (c : xoroc) : xoroc * N :=
  (XC (xoroshiro_step (xo_pp c) (xo_s c)) (xo_pp c), xoroshiro_out (xo_pp c) (xo_s c)).
Definition xoroshiro128 := buffered xoroc.
Definition xoroshiro128_next64 : xoroshiro128 -> xoroshiro128 * N := b_next64 xoroc_next.
Definition xoroshiro128_next32 : xoroshiro128 -> xoroshiro128 * N := b_next32 xoroc_next.
(* xoroshiro128.pyx:131-136 and 154-160 *)
Definition xoroshiro128_new (pp : bool) (words : list N) : xoroshiro128 := Buf (XC (v2_of words) pp) false 0.
(* xoroshiro128.pyx:188-205 *)
Definition xoroshiro128_jump_inplace : Z -> xoroshiro128 -> xoroshiro128 :=
  jump_buf (fun c => XC (xoroshiro_jump (xo_pp c) (xo_s c)) (xo_pp c)).
(* xoroshiro128.pyx:261-279 *)
Definition xoroshiro128_get (s : xoroshiro128) : pyval :=
  PDict [("bit_generator", PStr "randomgen.xoroshiro128.Xoroshiro128");
         ("s", PArr 64 (v2_words (xo_s (core s))));
         ("plusplus", bool_int (xo_pp (core s)));
         ("has_uint32", bool_int (has32 s));
         ("uinteger", PInt (Z.of_N (u32 s)))]%string.
(* xoroshiro128.pyx:281-298 *)
Definition xoroshiro128_set (v : pyval) : M xoroshiro128 unit := (
  lift (preamble "Xoroshiro128" "randomgen.xoroshiro128.Xoroshiro128" v);;
  l <- lift (obind (getitem v "s") (check_arr 2 64));;
  modify (fun b => set_core (XC (v2_of l) (xo_pp (core b))) b);;
  set_half v;;
  pp <- lift (match v with
              | PDict d => match assoc "plusplus" d with Some x => to_bint x | None => Ok false end
              | _ => Ok false
              end);;
  modify (fun b => set_core (XC (xo_s (core b)) pp) b))%py.
(* xoroshiro128.pyx:234-259. The new instance is made with plusplus=False. *)
Definition xoroshiro128_jumped (iter : Z) (t s : xoroshiro128) : xoroshiro128 * outcome unit :=
  (xoroshiro128_set (xoroshiro128_get s);; modify (xoroshiro128_jump_inplace iter))%py t.
Definition xoroshiro128_wf (s : xoroshiro128) : Prop := v2_wf (xo_s (core s)) /\ wf 32 (u32 s).

(* ----------------------------------------------------------- Xorshift1024 *)
(* src/xorshift1024/xorshift1024.h:6-11. s is an array of 16 words, p a C int. *)
Record xsc := XS { xs_s : list N; xs_p : Z }.
(* src/xorshift1024/xorshift1024.h:13-19. p + 1 overflows (undefined) only for
   p = 2^31 - 1, which is out of bounds already. *)
Definition xorshift1024_next (c : xsc) : option (xsc * N) :=
  match rd (xs_s c) (xs_p c) with
  | None => None
  | Some s0 =>
      let p := Z.land (xs_p c + 1) 15 in
      match rd (xs_s c) p with
      | None => None
      | Some s1 =>
          let s1 := N.lxor s1 (wshl 64 s1 31) in
          let r := N.lxor (N.lxor (N.lxor s1 s0) (N.shiftr s1 11)) (N.shiftr s0 30) in
          Some (XS (upd (xs_s c) (Z.to_nat p) r) p, wmul 64 r 0x9e3779b97f4a7c13)
      end
  end.
(* src/xorshift1024/xorshift1024.c:13-19 *)
Definition XORSHIFT1024_JUMP : list N :=
  [0x84242f96eca9c41d; 0xa3c65b8776f96855; 0x5b34a39f070b5837; 0x4489affce4f31a1e;
   0x2ffeeb0a48316f40; 0xdc2d9891fe68c022; 0x3659132bb12fea70; 0xaac17d8efa43cab8;
   0xc4cb815590989b13; 0x5ee975283d71c93b; 0x691548c86c1bd540; 0x7910c41d10a1e6a5;
   0x0b5fc64563b3e2a8; 0x047f7684e9fc949d; 0xb99181f2d8f685ca; 0x284600e3f30e38c3].
(* src/xorshift1024/xorshift1024.c:24-26: for j<16: t[j] ^= s[(j + p) & 15] *)
Definition xs_accum (t : list N) (c : xsc) : list N :=
  map (fun j => N.lxor (nth j t 0) (nth (Z.to_nat (Z.land (Z.of_nat j + xs_p c) 15)) (xs_s c) 0)) (seq 0 16).
(* src/xorshift1024/xorshift1024.c:23-28: the loop over the bits of one word *)
Fixpoint xs_jump_bits (k : nat) (word : N) (t : list N) (c : xsc) : option (list N * xsc) :=
  match k with
  | O => Some (t, c)
  | S k =>
      let t := if N.odd word then xs_accum t c else t in
      match xorshift1024_next c with
      | None => None
      | Some (c, _) => xs_jump_bits k (N.div2 word) t c
      end
  end.
Fixpoint xs_jump_words (ws : list N) (t : list N) (c : xsc) : option (list N * xsc) :=
  match ws with
  | [] => Some (t, c)
  | w :: ws => match xs_jump_bits 64 w t c with
               | None => None
               | Some (t, c) => xs_jump_words ws t c
               end
  end.
(* src/xorshift1024/xorshift1024.c:30-31: for j<16: s[(j + p) & 15] = t[j] *)
Fixpoint xs_store (js : list nat) (t : list N) (p : Z) (s : list N) : list N :=
  match js with
  | [] => s
  | j :: js => xs_store js t p (upd s (Z.to_nat (Z.land (Z.of_nat j + p) 15)) (nth j t 0))
  end.
(* src/xorshift1024/xorshift1024.c:11-32 *)
Definition xorshift1024_jump (c : xsc) : option xsc :=
  match xs_jump_words XORSHIFT1024_JUMP (repeat 0 16) c with
  | None => None
  | Some (t, c) => Some (XS (xs_store (seq 0 16) t (xs_p c) (xs_s c)) (xs_p c))
  end.
Definition xorshift1024 := buffered xsc.
(* xorshift1024.pyx:132-138: p keeps its value *)
Definition xorshift1024_seed (words : list N) (b : xorshift1024) : xorshift1024 :=
  Buf (XS words (xs_p (core b))) false 0.
(* xorshift1024.pyx:118-120: the object's memory is zeroed by tp_new, so p = 0 *)
Definition xorshift1024_new (words : list N) : xorshift1024 :=
  xorshift1024_seed words (Buf (XS (repeat 0 16) 0) false 0).
Fixpoint opt_iter {A} (n : nat) (f : A -> option A) (a : A) : option A :=
  match n with O => Some a | S n => match f a with Some b => opt_iter n f b | None => None end end.
(* xorshift1024.pyx:167-181 *)
Definition xorshift1024_jump_inplace (iter : Z) (b : xorshift1024) : option xorshift1024 :=
  match opt_iter (Z.to_nat iter) xorshift1024_jump (core b) with
  | Some c => Some (Buf c false 0)
  | None => None
  end.
(* xorshift1024.pyx:237-254 *)
Definition xorshift1024_get (s : xorshift1024) : pyval :=
  PDict [("bit_generator", PStr "randomgen.xorshift1024.Xorshift1024");
         ("state", PDict [("s", PArr 64 (xs_s (core s))); ("p", PInt (xs_p (core s)))]);
         ("has_uint32", bool_int (has32 s));
         ("uinteger", PInt (Z.of_N (u32 s)))]%string.
(* xorshift1024.pyx:256-269: p is converted to a C int and not checked *)
Definition xorshift1024_set (v : pyval) : M xorshift1024 unit := (
  lift (preamble "Xorshift1024" "randomgen.xorshift1024.Xorshift1024" v);;
  l <- lift (obind (getitem v "state") (fun d => obind (getitem d "s") (check_arr 16 64)));;
  modify (fun b => set_core (XS l (xs_p (core b))) b);;
  p <- lift (obind (getitem v "state") (fun d => obind (getitem d "p") to_cint));;
  modify (fun b => set_core (XS (xs_s (core b)) p) b);;
  set_half v)%py.
Definition xorshift1024_wf (s : xorshift1024) : Prop :=
  List.length (xs_s (core s)) = 16%nat /\ Forall (wf 64) (xs_s (core s)) /\
  (0 <= xs_p (core s) < 16)%Z /\ wf 32 (u32 s).

(* -------------------------------------------------------------------- LXM *)
(* src/lxm/lxm.h:12-18 *)
Record lxmc := LX { lx_x : v4; lx_lcg : N; lx_b : N }.
(* src/lxm/lxm.h:9 *)
Definition LXM_MULT : N := 2862933555777941757.
(* src/lxm/lxm.h:31-36 *)
Definition murmur_hash3 (key : N) : N :=
  let key := wmul 64 (N.lxor key (N.shiftr key 30)) 0xbf58476d1ce4e5b9 in
  let key := wmul 64 (N.lxor key (N.shiftr key 27)) 0x94d049bb133111eb in
  N.lxor key (N.shiftr key 31).
(* src/lxm/lxm.h:38-48: statement for statement the update of xoshiro256 *)
Definition lxm_xorshift (s : v4) : v4 :=
  let t := wshl 64 (v4_1 s) 17 in
  let s2 := N.lxor (v4_2 s) (v4_0 s) in
  let s3 := N.lxor (v4_3 s) (v4_1 s) in
  let s1 := N.lxor (v4_1 s) s2 in
  let s0 := N.lxor (v4_0 s) s3 in
  let s2 := N.lxor s2 t in
  V4 s0 s1 s2 (rotl 64 s3 45).
(* src/lxm/lxm.h:50-60 *)
Definition lxm_step (c : lxmc) : lxmc :=
  LX (lxm_xorshift (lx_x c)) (lcg_step 64 LXM_MULT (lx_b c) (lx_lcg c)) (lx_b c).
Definition lxm_out (c : lxmc) : N := murmur_hash3 (wadd 64 (v4_0 (lx_x c)) (lx_lcg c)).
Definition lxm_next (c : lxmc) : lxmc * N := (lxm_step c, lxm_out c).
(* src/lxm/lxm.c:24-50 and 52-62: only the xorshift part is jumped *)
Definition LXM_JUMP : list N :=
  [0x180ec6d33cfd0aba; 0xd5a61266f0c9392c; 0xa9582618e03fc9aa; 0x39abdc4529b1661c].
Definition lxm_jump (c : lxmc) : lxmc :=
  LX (jump_loop v4_add v4_zero lxm_xorshift 64 LXM_JUMP (lx_x c)) (lx_lcg c) (lx_b c).
(* src/lxm/lxm.c:7-22 lcg_jump, not called: the loop body *)
Fixpoint lcg_jump_loop (k : nat) (i : N) (am ap cm cp : N) : N * N :=
  match k with
  | O => (am, ap)
  | S k =>
      let '(am, ap) := if i =? 128 then (wmul 64 am cm, wadd 64 (wmul 64 ap cm) cp) else (am, ap) in
      lcg_jump_loop k (i + 1) am ap (wmul 64 cm cm) (wmul 64 (wadd 64 cm 1) cp)
  end.
Definition lxm_lcg_jump (c : lxmc) : lxmc :=
  let '(am, ap) := lcg_jump_loop 129 0 1 0 LXM_MULT (lx_b c) in
  LX (lx_x c) (wadd 64 (wmul 64 am (lx_lcg c)) ap) (lx_b c).
Definition lxm := buffered lxmc.
Definition lxm_next64 : lxm -> lxm * N := b_next64 lxm_next.
Definition lxm_next32 : lxm -> lxm * N := b_next32 lxm_next.
(* lxm.pyx:144-155: generate_state is a function of the seed sequence, so the
   while loop either leaves in the first round or never: None = never returns *)
Definition lxm_seed (words : list N) (s : lxm) : option lxm :=
  if fold_left N.lor (firstn 4 words) 0 =? 0 then None
  else Some (Buf (LX (v4_of words) (nth 4 words 0) (lx_b (core s))) false 0).
(* lxm.pyx:129-138: b | 1 *)
Definition lxm_new (b : N) (words : list N) : option lxm :=
  match lxm_seed words (Buf (LX v4_zero 0 0) false 0) with
  | Some s => Some (set_core (LX (lx_x (core s)) (lx_lcg (core s)) (N.lor b 1)) s)
  | None => None
  end.
(* lxm.pyx:183-197 *)
Definition lxm_jump_inplace : Z -> lxm -> lxm := jump_buf lxm_jump.
(* lxm.pyx:253-273 *)
Definition lxm_get (s : lxm) : pyval :=
  PDict [("bit_generator", PStr "randomgen.lxm.LXM");
         ("state", PDict [("x", PArr 64 (v4_words (lx_x (core s))));
                          ("lcg_state", PInt (Z.of_N (lx_lcg (core s))));
                          ("b", PInt (Z.of_N (lx_b (core s))))]);
         ("has_uint32", bool_int (has32 s));
         ("uinteger", PInt (Z.of_N (u32 s)))]%string.
(* lxm.pyx:275-289: b is not made odd here *)
Definition lxm_set (v : pyval) : M lxm unit := (
  lift (preamble "LXM" "randomgen.lxm.LXM" v);;
  l <- lift (obind (getitem v "state") (fun d => obind (getitem d "x") (check_arr 4 64)));;
  modify (fun b => set_core (LX (v4_of l) (lx_lcg (core b)) (lx_b (core b))) b);;
  g <- lift (obind (getitem v "state") (fun d => obind (getitem d "lcg_state") (to_uint 64)));;
  modify (fun b => set_core (LX (lx_x (core b)) g (lx_b (core b))) b);;
  i <- lift (obind (getitem v "state") (fun d => obind (getitem d "b") (to_uint 64)));;
  modify (fun b => set_core (LX (lx_x (core b)) (lx_lcg (core b)) i) b);;
  set_half v)%py.
(* lxm.pyx:226-251 *)
Definition lxm_jumped (iter : Z) (t s : lxm) : lxm * outcome unit :=
  (lxm_set (lxm_get s);; modify (lxm_jump_inplace iter))%py t.
Definition lxmc_wf (c : lxmc) : Prop := v4_wf (lx_x c) /\ wf 64 (lx_lcg c) /\ wf 64 (lx_b c).
Definition lxm_wf (s : lxm) : Prop := lxmc_wf (core s) /\ wf 32 (u32 s).
