(* PCG32, PCG64 (three variants), PCG64DXSM and LCG128Mix.
   pcg128_t is modelled as an N below 2^128 (the native __uint128_t path);
   Emul128.v models the emulated pair arithmetic and shows it agrees. *)
From Verif Require Import Word Common Buffer32 Lcg Py.
From Coq Require Import String ZifyBool ZifyNat ZifyN.
Open Scope N_scope.

(* ------------------------------------------------------------------ PCG32 *)
Record pcg32 := P32 { p32_state : N; p32_inc : N }.

(* src/pcg32/pcg32.h:6 *)
Definition PCG_MULT64 : N := 6364136223846793005.
(* src/pcg32/pcg32.h:13-20 pcg_rotr_32, the portable branch:
   (value >> rot) | (value << ((-rot) & 31)); rot is at most 31 here *)
Definition pcg_rotr_32 (value rot : N) : N :=
  N.lor (N.shiftr value rot) (wshl 32 value ((32 - rot) mod 32)).
(* src/pcg32/pcg32.h:26-28 *)
Definition xsh_rr (state : N) : N :=
  pcg_rotr_32 (trunc 32 (N.shiftr (N.lxor (N.shiftr state 18) state) 27)) (N.shiftr state 59).
(* src/pcg32/pcg32.h:22-24 *)
Definition pcg32_step (s : pcg32) : pcg32 :=
  P32 (lcg_step 64 PCG_MULT64 (p32_inc s) (p32_state s)) (p32_inc s).
(* src/pcg32/pcg32.h:30-36 and 69-71: the value comes from the old state *)
Definition pcg32_next32 (s : pcg32) : pcg32 * N := (pcg32_step s, xsh_rr (p32_state s)).
(* src/pcg32/pcg32.h:64-67. C leaves the order of the two calls in
   f()<<32 | f() unspecified; [hi_first] says which the compiler chose. *)
Definition pcg32_next64 (hi_first : bool) (s : pcg32) : pcg32 * N :=
  let '(s1, a) := pcg32_next32 s in
  let '(s2, b) := pcg32_next32 s1 in
  (s2, if hi_first then N.lor (N.shiftl a 32) b else N.lor (N.shiftl b 32) a).
(* src/pcg32/pcg32.h:73-77: numerator of the double over 2^53 *)
Definition pcg32_next_double (s : pcg32) : pcg32 * N :=
  let '(s1, a) := pcg32_next32 s in
  let '(s2, b) := pcg32_next32 s1 in
  (s2, N.shiftr a 5 * 67108864 + N.shiftr b 6).
(* src/pcg32/pcg32.h:38-46 *)
Definition pcg32_srandom (initstate initseq : N) : pcg32 :=
  let inc := N.lor (wshl 64 initseq 1) 1 in
  let s1 := pcg32_step (P32 0 inc) in
  pcg32_step (P32 (wadd 64 (p32_state s1) initstate) inc).
(* pcg32.pyx:179-214 advance: delta = wrap_int(delta, 64) *)
Definition pcg32_advance (delta : Z) (s : pcg32) : pcg32 :=
  P32 (lcg_advance 64 (p32_state s) (Z.to_N (wrap_int delta 64)) PCG_MULT64 (p32_inc s)) (p32_inc s).
(* pcg32.pyx:216-232 jump_inplace *)
Definition PCG32_JUMP : Z := 0x9e3779b97f4a7c16.
Definition pcg32_jump_inplace (iter : Z) (s : pcg32) : pcg32 := pcg32_advance (iter * PCG32_JUMP) s.
(* pcg32.pyx:153-177 state getter and setter. The setter writes the state word
   before it has converted the increment. *)
Definition pcg32_get (s : pcg32) : pyval :=
  PDict [("bit_generator", PStr "randomgen.pcg32.PCG32");
         ("state", PDict [("state", PInt (Z.of_N (p32_state s))); ("inc", PInt (Z.of_N (p32_inc s)))])]%string.
Definition pcg32_set (v : pyval) : M pcg32 unit := (
  lift (preamble "PCG32" "randomgen.pcg32.PCG32" v);;
  st <- lift (obind (getitem v "state") (fun d => obind (getitem d "state") (to_uint 64)));;
  modify (fun s => P32 st (p32_inc s));;
  inc <- lift (obind (getitem v "state") (fun d => obind (getitem d "inc") (to_uint 64)));;
  modify (fun s => P32 (p32_state s) inc))%py.
(* pcg32.pyx:264-293 jumped: a new generator with any freshly seeded state [t],
   which is then overwritten, and jumped. Returns the outcome and the new one. *)
Definition pcg32_jumped (iter : Z) (t s : pcg32) : pcg32 * outcome unit :=
  (pcg32_set (pcg32_get s);; modify (pcg32_jump_inplace iter))%py t.

Definition pcg32_wf (s : pcg32) : Prop := wf 64 (p32_state s) /\ wf 64 (p32_inc s).

(* ------------------------------------------------------------------ PCG64 *)
(* pcg64.pyx:198-220 _setup_rng_state *)
Inductive variant := XslRr | Dxsm128 | CmDxsm.
Record pcg64c := P64 { p_state : N; p_inc : N; p_var : variant }.
(* Python: self.variant, use_dxsm, cheap_multiplier and the C struct's use_dxsm
   are all functions of p_var, because every writer (_setup_rng_state,
   _reset_state_variables, pcg64_set_state) sets them together. *)
Definition pcg64 := buffered pcg64c.

(* src/pcg64/pcg64-v2.h:6-15 *)
Definition PCG_DEFAULT_MULT : N := 2549297995355413924 * 2 ^ 64 + 4865540595714422341.
Definition PCG_CHEAP_MULT : N := 0xda942042e4dd58b5.
Definition hi64 (x : N) : N := N.shiftr x 64.
Definition lo64 (x : N) : N := trunc 64 x.
(* src/pcg64/pcg64-common.h:104-110 pcg_rotr_64, portable branch; rot <= 63 *)
Definition pcg_rotr_64 (value rot : N) : N :=
  N.lor (N.shiftr value rot) (wshl 64 value ((64 - rot) mod 64)).
(* src/pcg64/pcg64-common.h:112-140 *)
Definition out_dxsm (m high low : N) : N :=
  let lo := N.lor low 1 in
  let hi := N.lxor high (N.shiftr high 32) in
  let hi := wmul 64 hi m in
  let hi := N.lxor hi (N.shiftr hi 48) in
  wmul 64 hi lo.
Definition out_xsl_rr (high low : N) : N := pcg_rotr_64 (N.lxor high low) (N.shiftr high 58).
Definition out_upper (high low : N) : N := high.
Definition out_lower (high low : N) : N := low.
Definition out_murmur3 (high low : N) : N :=
  let z := wmul 64 (N.lxor high (N.shiftr high 30)) 0xbf58476d1ce4e5b9 in
  let z := wmul 64 (N.lxor z (N.shiftr z 27)) 0x94d049bb133111eb in
  N.lxor z (N.shiftr z 31).

Definition p64_mult (v : variant) : N :=
  match v with CmDxsm => PCG_CHEAP_MULT | _ => PCG_DEFAULT_MULT end.
(* src/pcg64/pcg64-v2.h:22-60 pcg64_step_r and pcg64_cm_step_r *)
Definition p64_step (s : pcg64c) : pcg64c :=
  P64 (lcg_step 128 (p64_mult (p_var s)) (p_inc s) (p_state s)) (p_inc s) (p_var s).
Definition on_halves (f : N -> N -> N) (x : N) : N := f (hi64 x) (lo64 x).
(* src/pcg64/pcg64-v2.h:85-101 pcg64_random_r (output of the new state) and
   pcg64_dxsm_random_r (output of the old state) *)
Definition p64_next (s : pcg64c) : pcg64c * N :=
  let s' := p64_step s in
  match p_var s with
  | XslRr => (s', on_halves out_xsl_rr (p_state s'))
  | Dxsm128 => (s', on_halves (out_dxsm PCG_CHEAP_MULT) (p_state s'))
  | CmDxsm => (s', on_halves (out_dxsm PCG_CHEAP_MULT) (p_state s))
  end.
(* src/pcg64/pcg64-v2.h:62-83 pcg64_initialize *)
Definition p64_initialize (v : variant) (initstate initseq : N) : pcg64c :=
  let inc := N.lor (wshl 128 initseq 1) 1 in
  let s1 := p64_step (P64 0 inc v) in
  p64_step (P64 (wadd 128 (p_state s1) initstate) inc v).
(* pcg64.pyx:235-254 _seed_from_seq + _reset_state_variables, given the words
   of the seed sequence (most significant half first) *)
Definition pcg64_seed (v : variant) (initstate initseq : N) : pcg64 :=
  Buf (p64_initialize v initstate initseq) false 0.

Definition pcg64_next64 : pcg64 -> pcg64 * N := b_next64 p64_next.
Definition pcg64_next32 : pcg64 -> pcg64 * N := b_next32 p64_next.

(* pcg64.pyx:356-401 advance (src/pcg64/pcg64-v2.c:6-23): wrap to 128 bits,
   split in two words, recombine, advance, drop the buffered half *)
Definition p64_advance_core (d : N) (c : pcg64c) : pcg64c :=
  P64 (lcg_advance 128 (p_state c) d (p64_mult (p_var c)) (p_inc c)) (p_inc c) (p_var c).
Definition pcg64_advance (delta : Z) (s : pcg64) : pcg64 :=
  let d := wrap_int delta 128 in
  let d0 := Z.to_N (d / 2 ^ 64) in
  let d1 := Z.to_N (d mod 2 ^ 64) in
  Buf (p64_advance_core (N.lor (N.shiftl d0 64) d1) (core s)) false 0.
(* pcg64.pyx:403-422 jump_inplace *)
Definition PCG64_JUMP : Z := 0x9e3779b97f4a7c15f39cc0605cedc834.
Definition pcg64_jump_inplace (iter : Z) (s : pcg64) : pcg64 :=
  let step := (PCG64_JUMP * iter)%Z in
  let divisor := (step / 2 ^ 128)%Z in
  pcg64_advance (step - 2 ^ 128 * divisor) s.

(* pcg64.pyx:198-220: the strings accepted by _setup_rng_state; every other
   string (or object) silently means xsl-rr *)
Definition canon_variant (v : pyval) : variant :=
  match v with
  | PStr s => if (String.eqb s "dxsm" || String.eqb s "2.0" || String.eqb s "2"
                  || String.eqb s "cm-dxsm" || String.eqb s "cmdxsm")%string then CmDxsm
              else if (String.eqb s "dxsm-128" || String.eqb s "dxsm128")%string then Dxsm128
              else XslRr
  | _ => XslRr
  end.
Definition variant_name (v : variant) : string :=
  match v with CmDxsm => "dxsm" | Dxsm128 => "dxsm-128" | XslRr => "xsl-rr" end.
(* pcg64.pyx:300-326 *)
Definition pcg64_get (s : pcg64) : pyval :=
  let c := core s in
  PDict [("bit_generator", PStr "randomgen.pcg64.PCG64");
         ("state", PDict [("state", PInt (Z.of_N (p_state c))); ("inc", PInt (Z.of_N (p_inc c)))]);
         ("variant", PStr (variant_name (p_var c)));
         ("has_uint32", bool_int (has32 s));
         ("uinteger", PInt (Z.of_N (u32 s)))]%string.
(* a 128-bit integer stored in two uint64 array elements and read back:
   state_vec[0] = state // 2**64 etc. *)
Definition np_u128 (z : Z) : outcome N :=
  obind (np_uint 64 (z / 2 ^ 64)) (fun h => obind (np_uint 64 (z mod 2 ^ 64)) (fun l => Ok (N.lor (N.shiftl h 64) l))).
Arguments np_u128 : simpl never.
(* the part common to PCG64 (pcg64.pyx:328-354) and PCG64DXSM (1099-1125):
   everything that can raise happens before the first write *)
Definition pcg64_set_gen (name fqn : string) (var_of : pyval -> variant) (v : pyval) : M pcg64 unit := (
  lift (preamble name fqn v);;
  st <- lift (obind (getitem v "state") (fun d => obind (getitem d "state") to_int));;
  inc <- lift (obind (getitem v "state") (fun d => obind (getitem d "inc") to_int));;
  st <- lift (np_u128 st);;
  inc <- lift (np_u128 inc);;
  h <- lift (obind (getitem v "has_uint32") to_cint);;
  u <- lift (obind (getitem v "uinteger") (to_uint 32));;
  modify (fun s => Buf (P64 st inc (var_of v)) (nonzero h) u))%py.
Definition pcg64_set : pyval -> M pcg64 unit :=
  pcg64_set_gen "PCG64" "randomgen.pcg64.PCG64"
    (fun v => match v with PDict l => canon_variant (get_default l "variant" (PStr "1.0")) | _ => XslRr end).
(* pcg64.pyx:459-491 jumped. [t] is the state of the new instance before the
   state is copied over. *)
Definition pcg64_jumped (iter : Z) (t s : pcg64) : pcg64 * outcome unit :=
  (pcg64_set (pcg64_get s);; modify (pcg64_jump_inplace iter))%py t.

(* PCG64DXSM: pcg64.pyx:1072-1162. Same engine with variant dxsm, own getter
   without the variant, own setter that forces it. *)
Definition dxsm_get (s : pcg64) : pyval :=
  let c := core s in
  PDict [("bit_generator", PStr "randomgen.pcg64.PCG64DXSM");
         ("state", PDict [("state", PInt (Z.of_N (p_state c))); ("inc", PInt (Z.of_N (p_inc c)))]);
         ("has_uint32", bool_int (has32 s));
         ("uinteger", PInt (Z.of_N (u32 s)))]%string.
Definition dxsm_set : pyval -> M pcg64 unit :=
  pcg64_set_gen "PCG64DXSM" "randomgen.pcg64.PCG64DXSM" (fun _ => CmDxsm).
Definition dxsm_jumped (iter : Z) (t s : pcg64) : pcg64 * outcome unit :=
  (dxsm_set (dxsm_get s);; modify (pcg64_jump_inplace iter))%py t.

Definition pcg64_wf (s : pcg64) : Prop :=
  wf 128 (p_state (core s)) /\ wf 128 (p_inc (core s)) /\ wf 32 (u32 s).

(* -------------------------------------------------------------- LCG128Mix *)
(* src/pcg64/lcg128mix.h:8-14. output: index 0..4 or -1 with a function. User
   output functions are arbitrary; [cfun id] gives their meaning below. *)
Record lcgc := LC { l_state : N; l_inc : N; l_mult : N; l_dxsm : N; l_post : bool; l_out : Z; l_func : N }.
(* the Python object: C struct + attributes (pcg64.pyx:633-690) *)
Record lcgpy := LPy { lb : buffered lcgc; py_mult : N; py_cfunc : option N }.

Section Lcg128Mix.
  Context (cfun : N -> N -> N -> N).
  (* src/pcg64/lcg128mix.h:15-32 *)
  Definition lcg_step1 (c : lcgc) : lcgc :=
    LC (lcg_step 128 (l_mult c) (l_inc c) (l_state c)) (l_inc c) (l_mult c) (l_dxsm c) (l_post c) (l_out c) (l_func c).
  (* src/pcg64/lcg128mix.h:59-73 *)
  Definition lcg_output (c : lcgc) (x : N) : N :=
    let h := hi64 x in let l := lo64 x in
    match l_out c with
    | 0%Z => out_xsl_rr h l
    | 1%Z => out_dxsm (l_dxsm c) h l
    | 2%Z => out_murmur3 h l
    | 3%Z => out_upper h l
    | 4%Z => out_lower h l
    | (-1)%Z => trunc 64 (cfun (l_func c) h l)
    | _ => 2 ^ 64 - 1
    end.
  (* src/pcg64/lcg128mix.h:50-58 *)
  Definition lcg_next (c : lcgc) : lcgc * N :=
    let c' := lcg_step1 c in
    (c', lcg_output c (if l_post c then l_state c' else l_state c)).
End Lcg128Mix.
Definition lcg_adv_core (d : N) (c : lcgc) : lcgc :=
  LC (lcg_advance 128 (l_state c) d (l_mult c) (l_inc c)) (l_inc c) (l_mult c) (l_dxsm c) (l_post c) (l_out c) (l_func c).
(* pcg64.pyx:869-912 advance, src/pcg64/lcg128mix.c:32-39 *)
Definition lcg_adv (delta : Z) (s : lcgpy) : lcgpy :=
  let d := wrap_int delta 128 in
  let d0 := Z.to_N (d / 2 ^ 64) in let d1 := Z.to_N (d mod 2 ^ 64) in
  LPy (Buf (lcg_adv_core (d0 * 2 ^ 64 + d1) (core (lb s))) false 0) (py_mult s) (py_cfunc s).
(* pcg64.pyx:914-933 *)
Definition lcg_jump_inplace (iter : Z) (s : lcgpy) : lcgpy :=
  let step := (PCG64_JUMP * iter)%Z in
  lcg_adv (step - 2 ^ 128 * (step / 2 ^ 128)) s.
(* src/pcg64/lcg128mix.h:34-48, lcg128mix.c:23-30 and pcg64.pyx:717-741: seeding
   uses the Python attribute self.multiplier *)
Definition lcg_seed (initstate initseq : N) (s : lcgpy) : lcgpy :=
  let c := core (lb s) in
  let inc := N.lor (wshl 128 initseq 1) 1 in
  let s1 := lcg_step 128 (py_mult s) inc 0 in
  let s2 := lcg_step 128 (py_mult s) inc (wadd 128 s1 initstate) in
  LPy (Buf (LC s2 inc (py_mult s) (l_dxsm c) (l_post c) (l_out c) (l_func c)) false 0) (py_mult s) (py_cfunc s).
Definition out_names : list string := ["xsl-rr"; "dxsm"; "murmur3"; "upper"; "lower"]%string.
Definition out_lookup (s : string) : outcome Z :=
  if String.eqb s "xsl-rr" then Ok 0%Z else if String.eqb s "dxsm" then Ok 1%Z
  else if String.eqb s "murmur3" then Ok 2%Z else if String.eqb s "upper" then Ok 3%Z
  else if String.eqb s "lower" then Ok 4%Z else Raise KeyError.
(* the constructor arguments: pcg64.pyx:633-690. [out] is an output name index
   or a user function. *)
Definition lcg_new (mult dxsm : N) (post : bool) (out : Z + N) (initstate initseq : N) : lcgpy :=
  let '(o, f, cf) := match out with inl i => (i, 0, None) | inr f => ((-1)%Z, f, Some f) end in
  lcg_seed initstate initseq (LPy (Buf (LC 0 0 0 dxsm post o f) false 0) mult cf).
(* pcg64.pyx:769-817 getter: a user function attached to the Python object hides
   the output index of the C struct. [hidden_key_error] cannot happen: the
   index is 0..4 whenever _cfunc is None. *)
Definition lcg_get (s : lcgpy) : pyval :=
  let c := core (lb s) in
  let out := match py_cfunc s with
             | Some f => PFun f
             | None => PStr (List.nth (Z.to_nat (l_out c)) out_names "KeyError"%string)
             end in
  PDict [("bit_generator", PStr "randomgen.pcg64.LCG128Mix");
         ("state", PDict [("state", PInt (Z.of_N (l_state c))); ("inc", PInt (Z.of_N (l_inc c)));
                          ("multiplier", PInt (Z.of_N (l_mult c)));
                          ("dxsm_multiplier", PInt (Z.of_N (l_dxsm c)));
                          ("post", bool_int (l_post c)); ("output_func", out)]);
         ("has_uint32", bool_int (has32 (lb s)));
         ("uinteger", PInt (Z.of_N (u32 (lb s))))]%string.
(* pcg64.pyx:819-867 setter, in the order of its writes *)
Definition upd_core (f : lcgc -> lcgc) (s : lcgpy) : lcgpy :=
  LPy (Buf (f (core (lb s))) (has32 (lb s)) (u32 (lb s))) (py_mult s) (py_cfunc s).
Definition lcg_set (v : pyval) : M lcgpy unit := (
  lift (preamble "LCG128Mix" "randomgen.pcg64.LCG128Mix" v);;
  st <- lift (obind (getitem v "state") (fun d => obind (getitem d "state") to_int));;
  inc <- lift (obind (getitem v "state") (fun d => obind (getitem d "inc") to_int));;
  mu <- lift (obind (getitem v "state") (fun d => obind (getitem d "multiplier") to_int));;
  st <- lift (np_u128 st);;
  inc <- lift (np_u128 inc);;
  mu <- lift (np_u128 mu);;
  h <- lift (getitem v "has_uint32");;
  u <- lift (getitem v "uinteger");;
  modify (upd_core (fun c => LC st inc mu (l_dxsm c) (l_post c) (l_out c) (l_func c)));;
  h <- lift (to_cint h);;
  modify (fun s => LPy (Buf (core (lb s)) (nonzero h) (u32 (lb s))) (py_mult s) (py_cfunc s));;
  u <- lift (to_uint 32 u);;
  modify (fun s => LPy (Buf (core (lb s)) (has32 (lb s)) u) (py_mult s) (py_cfunc s));;
  dm <- lift (obind (getitem v "state") (fun d => obind (getitem d "dxsm_multiplier") (to_uint 64)));;
  modify (upd_core (fun c => LC (l_state c) (l_inc c) (l_mult c) dm (l_post c) (l_out c) (l_func c)));;
  po <- lift (obind (getitem v "state") (fun d => obind (getitem d "post") to_cint));;
  modify (upd_core (fun c => LC (l_state c) (l_inc c) (l_mult c) (l_dxsm c) (po =? 1)%Z (l_out c) (l_func c)));;
  o <- lift (obind (getitem v "state") (fun d => getitem d "output_func"));;
  match o with
  | PStr nm => i <- lift (out_lookup nm);;
      modify (upd_core (fun c => LC (l_state c) (l_inc c) (l_mult c) (l_dxsm c) (l_post c) i (l_func c)))
  | PFun f =>
      modify (fun s => LPy (lb s) (py_mult s) (Some f));;
      modify (upd_core (fun c => LC (l_state c) (l_inc c) (l_mult c) (l_dxsm c) (l_post c) (-1)%Z f))
  | _ => ret tt
  end)%py.
(* pcg64.pyx:935-966 jumped: the new instance is built with the default
   multiplier, output and post arguments. *)
Definition lcg_jumped (iter : Z) (initstate initseq : N) (s : lcgpy) : lcgpy * outcome unit :=
  (lcg_set (lcg_get s);; modify (lcg_jump_inplace iter))%py
    (lcg_new PCG_DEFAULT_MULT 15750249268501108917 true (inl 0%Z) initstate initseq).
