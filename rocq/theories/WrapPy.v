(* UserBitGenerator objects: wrapper.pyx:39-345. The four functions that end up in
   the bitgen_t, and the state property. *)
From Verif Require Import Word Wrapper.
From Verif Require Py.
From Coq Require Import ZifyBool ZifyNat ZifyN.
Notation Ok := Py.Ok. Notation Raise := Py.Raise. Notation outcome := Py.outcome.
Notation TypeError := Py.TypeError. Notation NotImplementedErr := Py.NotImplementedErr.
Open Scope Z_scope.
Ltac Zify.zify_post_hook ::= idtac.

Section Wrap.
  (* W: the world the callables read and change *)
  Context {W : Type}.
  (* a Python callable, as called with a void pointer (a Python integer, or None for
     the null pointer, which ctypes passes as None: 0 here). Doubles are given by their
     numerator over 2^53. *)
  Definition callable := Z -> W -> W * Z.
  Inductive ret := RU64 | RU32 | RDouble.
  (* ctypes.CFUNCTYPE(r, c_void_p)(f) *)
  Definition cfun (r : ret) (f : callable) : callable :=
    fun p w => let '(w1, v) := f p w in (w1, match r with RU64 => c_u64 v | RU32 => c_u32 v | RDouble => v end).

  (* wrapper.pyx:102-109 with the bitgen_t of BitGenerator *)
  Record ubg := UBG {
    b_raw : callable; b_64 : callable; b_32 : callable; b_double : callable; b_ptr : Z;
    b_getter : option (W -> W * Z); b_setter : option (Z -> W -> W) }.

  (* wrapper.pyx:182-203. next_32 with bits=32 is the raw function with return type
     uint64 called through a pointer to a function returning uint32_t: the low half *)
  Definition setup_64 (bits : Z) (raw : callable) (f : option callable) : callable :=
    match f with
    | Some f => cfun RU64 f
    | None => if bits =? 64 then cfun RU64 raw else cfun RU64 (fun p => raw_32_to_64 (raw p))
    end.
  Definition setup_32 (bits : Z) (raw : callable) (f : option callable) : callable :=
    match f with
    | Some f => cfun RU32 f
    | None => if bits =? 32 then cfun RU32 (cfun RU64 raw) else cfun RU32 (fun p => raw_64_to_32 (raw p))
    end.
  Definition setup_double (bits : Z) (raw : callable) (f : option callable) : callable :=
    cfun RDouble match f with
                 | Some f => f
                 | None => if bits =? 64 then fun p => raw_64_to_double (raw p) else fun p => raw_32_to_double (raw p)
                 end.
  (* wrapper.pyx:111-137, 163-175. state: the value of the ctypes pointer, None for no
     pointer. bits is any C int. *)
  Definition new (raw : callable) (bits : Z) (f64 f32 fd : option callable) (state : option Z)
                 (getter : option (W -> W * Z)) (setter : option (Z -> W -> W)) : ubg :=
    UBG (cfun RU64 raw) (setup_64 bits raw f64) (setup_32 bits raw f32) (setup_double bits raw fd)
        (match state with Some p => p | None => 0 end) getter setter.

  (* objects given to from_ctypes and from_cfunc. CTypes: an object with attributes argtypes (their
     number) and restype, callable without conversion; CNumba: a numba CFunc, with its ctypes
     function; CPlain: anything else *)
  Inductive cobj := CTypes (nargs : N) (r : ret) (f : callable) | CNumba (nargs : N) (r : ret) (f : callable) | CPlain.
  Definition ret_eqb (a b : ret) : bool :=
    match a, b with RU64, RU64 | RU32, RU32 | RDouble, RDouble => true | _, _ => false end.
  (* wrapper.pyx:309-323: only the presence of argtypes is looked at *)
  Definition check1 (r : ret) (o : cobj) : outcome callable :=
    match o with
    | CTypes _ r' f => if ret_eqb r' r then Ok f else Raise TypeError
    | _ => Raise TypeError
    end.
  (* wrapper.pyx:268-345 *)
  Definition from_ctypes (raw n64 n32 nd : cobj) (state : option Z) (getter : option (W -> W * Z)) (setter : option (Z -> W -> W)) : outcome ubg :=
    Py.obind (check1 RU64 raw) (fun r => Py.obind (check1 RU64 n64) (fun a => Py.obind (check1 RU32 n32) (fun b => Py.obind (check1 RDouble nd) (fun d =>
    Ok (UBG r a b d (match state with Some p => p | None => 0 end) getter setter))))).
  (* wrapper.pyx:247-266, numba being installed *)
  Definition ctypes_of (o : cobj) : outcome cobj :=
    match o with CNumba n r f => Ok (CTypes n r f) | _ => Raise TypeError end.
  Definition from_cfunc (raw n64 n32 nd : cobj) (state : option Z) (getter : option (W -> W * Z)) (setter : option (Z -> W -> W)) : outcome ubg :=
    Py.obind (ctypes_of raw) (fun r => Py.obind (ctypes_of n64) (fun a => Py.obind (ctypes_of n32) (fun b => Py.obind (ctypes_of nd) (fun d =>
    from_ctypes r a b d state getter setter)))).

  (* what the users of the bitgen_t see *)
  Definition call (f : ubg -> callable) (g : ubg) (w : W) : W * Z := f g (b_ptr g) w.
  (* wrapper.pyx:145-164 *)
  Definition get_state (g : ubg) (w : W) : outcome (W * Z) :=
    match b_getter g with Some f => Ok (f w) | None => Raise NotImplementedErr end.
  Definition set_state (g : ubg) (v : Z) (w : W) : outcome W :=
    match b_setter g with Some f => Ok (f v w) | None => Raise NotImplementedErr end.
End Wrap.
