(* The arguments of the constructors and of seed(): mode and numpy_seed of every
   class that takes them, inc and variant of PCG64, PCG64DXSM, PCG32 and
   LCG128Mix; the mode of a jumped and of an unpickled generator; the legacy
   tuple form of the MT19937 state. *)
From Verif Require Import Word Common Buffer32 Lcg Py Pcg Mt19937.
From Coq Require Import String Ascii ZifyBool ZifyNat ZifyN DecimalString.
Open Scope N_scope.
Ltac Zify.zify_post_hook ::= idtac.
Notation length := List.length.

(* ------------------------------------------------------------------ text *)
(* str.lower() on the letters A-Z. Strings are bytes (UTF-8); the only other
   characters whose lower case has an ASCII letter are the Kelvin sign (k) and
   I with dot (i), letters that no name compared below contains. *)
Definition lower1 (c : ascii) : ascii :=
  let n := N_of_ascii c in if (65 <=? n) && (n <=? 90) then ascii_of_N (n + 32) else c.
Fixpoint lower (s : string) : string :=
  match s with EmptyString => EmptyString | String c s => String (lower1 c) (lower s) end.
(* str.replace("-", "") *)
Fixpoint undash (s : string) : string :=
  match s with EmptyString => EmptyString | String c s => if Ascii.eqb c "-" then undash s else String c (undash s) end.
Definition in_names (l : list string) (s : string) : bool := existsb (String.eqb s) l.

(* ------------------------------------------------------- BitGenerator.__init__ *)
(* the mode argument: absent (_DeprecatedValue), a string, anything else *)
Inductive mode_arg := MAbsent | MText (s : string) | MOther.
(* _supported_modes: common.pyx:58-59 and mt19937.pyx:129-130, pcg64.pyx:222-223,
   philox.pyx:230-231, sfc.pyx:141-142 *)
Definition modes_one : list string := ["sequence"]%string.
Definition modes_two : list string := ["sequence"; "numpy"]%string.
(* common.pyx:32-51; the result says whether self.mode is "numpy". The
   FutureWarning is not modelled. *)
Definition init_mode (supported : list string) (numpy_seed : bool) (mode : mode_arg) : outcome bool :=
  match mode with
  | MAbsent => Ok numpy_seed
  | MText s => if in_names supported (lower s) then Ok (numpy_seed || String.eqb (lower s) "numpy") else Raise ValueError
  | MOther => Raise ValueError
  end.

(* ------------------------------------------------------------------- inc *)
(* the objects passed as inc. IFloat n d: the finite float n/d; IText z: a string
   that int() reads as z or rejects; IArr z: an array or a list, z: what int()
   makes of it (an array with one element), if anything. Integers include
   booleans and NumPy's integer scalars. *)
Inductive inc_arg := INone | IInt (z : Z) | IFloat (n : Z) (d : positive) | INan | IInf | IText (z : option Z) | IArr (z : option Z).
(* int(inc) *)
Definition inc_int (a : inc_arg) : outcome Z :=
  match a with
  | INone => Raise TypeError
  | IInt z => Ok z
  | IFloat n d => Ok (Z.quot n (Zpos d))
  | INan => Raise ValueError
  | IInf => Raise OverflowError
  | IText (Some z) | IArr (Some z) => Ok z
  | IText None => Raise ValueError
  | IArr None => Raise TypeError
  end.
(* pcg64.pyx:289-295 and pcg32.pyx:143-150: not a scalar: TypeError; then
   inc < 0 or inc > ub or int(np.squeeze(inc)) != inc: ValueError. A string cannot
   be compared with 0: TypeError. nan passes both comparisons and int() raises. *)
Definition inc_check (ub : Z) (a : inc_arg) : outcome unit :=
  match a with
  | INone => Ok tt
  | IInt z => if ((z <? 0) || (ub <? z))%Z then Raise ValueError else Ok tt
  | IFloat n d => if ((n <? 0) || (ub * Zpos d <? n) || negb (Z.quot n (Zpos d) * Zpos d =? n))%Z then Raise ValueError else Ok tt
  | INan | IInf => Raise ValueError
  | IText _ | IArr _ => Raise TypeError
  end.

(* ------------------------------------------------------- objects with a seed_seq *)
Section Objects.
  (* seed sequences, and seq_words q n: q.generate_state(n, np.uint64) *)
  Context (Sq : Type) (seq_words : Sq -> N -> list N).
  (* two consecutive words as a 128-bit number, high word first: pcg64.c:124-137 *)
  Definition pair128 (l : list N) (i : nat) : N := N.lor (N.shiftl (nth i l 0) 64) (nth (S i) l 0).

  (* PCG64: self._seed_seq, self.mode == "numpy", and the state *)
  Record pcg64o := PO { po_seq : Sq; po_numpy : bool; po_st : pcg64 }.
  (* pcg64.pyx:240-259 _seed_from_seq and _seed_from_seq_numpy_compat *)
  Definition pcg64_from_seq (q : Sq) (numpy : bool) (v : variant) (inc : inc_arg) : outcome pcg64 :=
    match inc with
    | INone => let l := seq_words q 4 in Ok (pcg64_seed v (pair128 l 0) (pair128 l 2))
    | _ => if numpy then Raise ValueError else
           let l := seq_words q 2 in
           obind (inc_int inc) (fun z => obind (np_u128 z) (fun i => Ok (pcg64_seed v (pair128 l 0) i)))
    end.
  (* inc = None if seed is None else inc (pcg64.pyx:172, 288) *)
  Definition drop_inc (seeded : bool) (inc : inc_arg) : inc_arg := if seeded then inc else INone.
  (* pcg64.pyx:261-296 seed(seed, inc), common.pyx:79-87. seeded: seed is not None; q: the
     SeedSequence made from seed. Seeds that SeedSequence rejects are not modelled
     here (PropSeedSeq). self._seed_seq is assigned before _seed_from_seq can raise. *)
  Definition pcg64_py_seed (seeded : bool) (q : Sq) (inc : inc_arg) : M pcg64o unit :=
    let inc := drop_inc seeded inc in (
    lift (inc_check (2 ^ 128) inc);;
    modify (fun o => PO q (po_numpy o) (po_st o));;
    o <- read;;
    s <- lift (pcg64_from_seq q (po_numpy o) (p_var (core (po_st o))) inc);;
    modify (fun o => PO (po_seq o) (po_numpy o) s))%py.
  (* the variant argument: None, str, int (NumPy's too), bool, anything else *)
  Inductive variant_arg := VNone | VText (s : string) | VInt (z : Z) | VBool (b : bool) | VOther.
  (* pcg64.pyx:174-177: str(variant) *)
  Definition variant_text (a : variant_arg) : outcome string :=
    match a with
    | VNone => Ok "dxsm"%string
    | VText s => Ok s
    | VInt z => Ok (NilZero.string_of_int (Z.to_int z))
    | VBool b => Ok (if b then "True" else "False")%string
    | VOther => Raise TypeError
    end.
  (* pcg64.pyx:178-181 *)
  Definition variant_names : list string := ["xslrr"; "1.0"; "1"; "cmdxsm"; "dxsm"; "dxsm128"; "2.0"; "2"]%string.
  Definition variant_of (text : string) : outcome variant :=
    if in_names variant_names (undash (lower text)) then Ok (canon_variant (PStr (undash (lower text)))) else Raise ValueError.
  (* pcg64.pyx:157-196 __init__. self.seed is called on an object without a seeded
     state: any state will do, seeding overwrites it. *)
  Definition pcg64_py_new (numpy_seed : bool) (mode : mode_arg) (seeded : bool) (q : Sq) (inc : inc_arg) (va : variant_arg) : outcome pcg64o :=
    obind (init_mode modes_two numpy_seed mode) (fun numpy =>
    let inc := drop_inc seeded inc in
    obind (variant_text va) (fun text =>
    obind (variant_of text) (fun v =>
    if numpy && negb (String.eqb text "xsl-rr") then Raise ValueError else
    if numpy && match inc with INone => false | _ => true end then Raise ValueError else
    match pcg64_py_seed seeded q inc (PO q numpy (Buf (P64 0 0 v) false 0)) with
    | (o, Ok _) => Ok o
    | (_, Raise e) => Raise e
    end))).
  (* pcg64.pyx:459-491 jumped: the copy of the seed sequence is never None *)
  Definition pcg64_py_jumped (iter : Z) (o : pcg64o) : outcome pcg64o :=
    obind (pcg64_py_new (po_numpy o) MAbsent true (po_seq o) INone (VText (variant_name (p_var (core (po_st o)))))) (fun t =>
    match pcg64_jumped iter (po_st t) (po_st o) with
    | (s, Ok _) => Ok (PO (po_seq t) (po_numpy t) s)
    | (_, Raise e) => Raise e
    end).
  (* pcg64.pyx:1069-1070 PCG64DXSM(seed, inc) *)
  Definition dxsm_py_new (seeded : bool) (q : Sq) (inc : inc_arg) : outcome pcg64o :=
    pcg64_py_new false MAbsent seeded q inc (VText "dxsm").

  (* PCG32 *)
  Record pcg32o := PO32 { po32_seq : Sq; po32_st : pcg32 }.
  (* cyf: whether Cython's conversion of an object to uint64_t takes floats (it did
     before Cython 3); pcg32.pyx:113-117 *)
  Definition pcg32_from_seq (cyf : bool) (q : Sq) (inc : inc_arg) : outcome pcg32 :=
    let l := seq_words q 2 in
    match inc with
    | INone => Ok (pcg32_srandom (nth 0 l 0) (nth 1 l 0))
    | IInt z => obind (to_uint 64 (PInt z)) (fun i => Ok (pcg32_srandom (nth 0 l 0) i))
    | IFloat n d => if cyf then obind (to_uint 64 (PInt (Z.quot n (Zpos d)))) (fun i => Ok (pcg32_srandom (nth 0 l 0) i)) else Raise TypeError
    | _ => Raise TypeError
    end.
  (* pcg32.pyx:119-151 seed(seed, inc) *)
  Definition pcg32_py_seed (cyf : bool) (q : Sq) (inc : inc_arg) : M pcg32o unit := (
    lift (inc_check (2 ^ 64) inc);;
    modify (fun o => PO32 q (po32_st o));;
    s <- lift (pcg32_from_seq cyf q inc);;
    modify (fun o => PO32 (po32_seq o) s))%py.
  (* pcg32.pyx:104-111 __init__ *)
  Definition pcg32_py_new (cyf : bool) (mode : mode_arg) (q : Sq) (inc : inc_arg) : outcome pcg32o :=
    obind (init_mode modes_one false mode) (fun _ =>
    match pcg32_py_seed cyf q inc (PO32 q (P32 0 0)) with (o, Ok _) => Ok o | (_, Raise e) => Raise e end).

  (* LCG128Mix: pcg64.pyx:717-767 _seed_from_seq and seed(seed, inc), nothing is checked *)
  Record lcgo := LO { lo_seq : Sq; lo_st : lcgpy }.
  Definition lcg_from_seq (q : Sq) (inc : inc_arg) (s : lcgpy) : outcome lcgpy :=
    match inc with
    | INone => let l := seq_words q 4 in Ok (lcg_seed (pair128 l 0) (pair128 l 2) s)
    | _ => let l := seq_words q 2 in
           obind (inc_int inc) (fun z => obind (np_u128 z) (fun i => Ok (lcg_seed (pair128 l 0) i s)))
    end.
  Definition lcg_py_seed (q : Sq) (inc : inc_arg) : M lcgo unit := (
    modify (fun o => LO q (lo_st o));;
    o <- read;;
    s <- lift (lcg_from_seq q inc (lo_st o));;
    modify (fun o => LO (lo_seq o) s))%py.
  (* pcg64.pyx:633-690 __init__: the checks of output, multiplier, dxsm_multiplier and post.
     output: a string, a ctypes function with (inr (Some f)) or without the right
     signature, or another object; m, dm: Python ints; post: a bool or not *)
  Inductive out_arg := OText (s : string) | OFun (sig_ok : bool) (id : N) | OOther.
  Definition lcg_py_new (q : Sq) (inc : inc_arg) (m : Z) (out : out_arg) (dm : Z) (post : option bool) : outcome lcgo :=
    obind (match out with
           | OFun true f => Ok (inr f)
           | OFun false _ | OOther => Raise ValueError
           | OText s => match out_lookup (lower s) with Ok i => Ok (inl i) | Raise _ => Raise ValueError end
           end) (fun o =>
    if negb ((0 <? m) && (m <? 2 ^ 128))%Z || negb (Z.odd m) then Raise ValueError else
    if negb ((0 <? dm) && (dm <? 2 ^ 64))%Z || negb (Z.odd dm) then Raise ValueError else
    match post with
    | None => Raise TypeError
    | Some post =>
        let '(oi, f, cf) := match o with inl i => (i, 0, None) | inr f => ((-1)%Z, f, Some f) end in
        match lcg_py_seed q inc (LO q (LPy (Buf (LC 0 0 0 (Z.to_N dm) post oi f) false 0) (Z.to_N m) cf)) with
        | (o, Ok _) => Ok o
        | (_, Raise e) => Raise e
        end
    end).

  (* MT19937: mt19937.pyx:120-178, 255-276. seq_words32 q n: q.generate_state(n, np.uint32) *)
  Context (seq_words32 : Sq -> N -> list N).
  Record mto := MTO { mo_seq : Sq; mo_numpy : bool; mo_st : mt }.
  Definition mt_py_seed (q : Sq) (o : mto) : mto :=
    MTO q (mo_numpy o) (if mo_numpy o then mt_seed_numpy (seq_words32 q 624) else mt_seed (seq_words32 q 624)).
  Definition mt_py_new (numpy_seed : bool) (mode : mode_arg) (q : Sq) : outcome mto :=
    obind (init_mode modes_two numpy_seed mode) (fun numpy => Ok (mt_py_seed q (MTO q numpy (MT [] 0)))).
  (* jumped(): jump: what jump_inplace does to the state (MtJump); None: undefined *)
  Definition mt_py_jumped (jump : mt -> option mt) (o : mto) : outcome (option mto) :=
    obind (mt_py_new (mo_numpy o) MAbsent (mo_seq o)) (fun t =>
    match mt_setst (mt_get (mo_st o)) (mo_st t) with
    | (s, Ok _) => Ok (match jump s with Some s => Some (MTO (mo_seq t) (mo_numpy t) s) | None => None end)
    | (_, Raise e) => Raise e
    end).
  (* pickling of an ExtendedGenerator: _pickle.py:86-110: the class is called without
     arguments (q0: a SeedSequence of system entropy), then the state is assigned *)
  Definition mt_py_unpickled (q0 : Sq) (o : mto) : outcome mto :=
    obind (mt_py_new false MAbsent q0) (fun t =>
    match mt_setst (mt_get (mo_st o)) (mo_st t) with
    | (s, Ok _) => Ok (MTO (mo_seq t) (mo_numpy t) s)
    | (_, Raise e) => Raise e
    end).
End Objects.
Arguments PO {Sq}. Arguments po_seq {Sq}. Arguments po_numpy {Sq}. Arguments po_st {Sq}.
Arguments PO32 {Sq}. Arguments po32_seq {Sq}. Arguments po32_st {Sq}.
Arguments LO {Sq}. Arguments lo_seq {Sq}. Arguments lo_st {Sq}.
Arguments MTO {Sq}. Arguments mo_seq {Sq}. Arguments mo_numpy {Sq}. Arguments mo_st {Sq}.

(* ---------------------------------------------- the MT19937 state setter, all of it *)
(* the assigned object: a tuple or anything else. mt19937.pyx:297-303; a tuple whose
   first element is an array is rejected here (NumPy's comparison of an empty
   array with a string is not modelled). *)
Inductive mt_value := MTuple (l : list pyval) | MOtherValue (v : pyval).
Definition mt_legacy (l : list pyval) : outcome pyval :=
  match l with
  | [] => Raise IndexError
  | PStr s :: r =>
      if negb (String.eqb s "MT19937") then Raise ValueError else
      match r with
      | [key; pos] | [key; pos; _; _] => Ok (PDict [("bit_generator", PStr "MT19937"); ("state", PDict [("key", key); ("pos", pos)])]%string)
      | _ => Raise ValueError
      end
  | _ => Raise ValueError
  end.
Definition mt_set_any (v : mt_value) : M mt unit :=
  match v with
  | MTuple l => (d <- lift (mt_legacy l);; mt_setst d)%py
  | MOtherValue v => mt_setst v
  end.

(* ------------------------------------------------------------------ facts *)
