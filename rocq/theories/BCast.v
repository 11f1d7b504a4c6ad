(* broadcasting.pyx: constraints on parameters, output arrays, fills and broadcast fills; and
   Generator.uintegers and Generator.random, which use them.
   NumPy is taken at its documented behaviour: broadcasting, iteration in C order. *)
From Coq Require Import Arith NArith ZArith QArith List Lia Bool ZifyBool ZifyNat ZifyN.
From Verif Require Import Word Py Shape Convert Complex.
Import ListNotations.
Ltac Zify.zify_post_hook ::= idtac.
Open Scope N_scope.

(* ------------------------------------------------------------ constraints *)
(* A double: not a number, an infinity or a signed magnitude (simplification: any rational one) *)
Inductive dbl := DNaN | DInf (neg : bool) | DFin (neg : bool) (q : Q).
Definition dneg (x : dbl) : bool := match x with DNaN => false | DInf s | DFin s _ => s end.      (* np.signbit *)
Definition dnan (x : dbl) : bool := match x with DNaN => true | _ => false end.
Definition signed (s : bool) (q : Q) : Q := if s then - q else q.
Definition dle (x y : dbl) : bool :=                                                             (* IEEE <= *)
  match x, y with
  | DNaN, _ | _, DNaN => false
  | DInf s, DInf t => s || negb t
  | DInf s, DFin _ _ => s
  | DFin _ _, DInf t => negb t
  | DFin s p, DFin t q => Qle_bool (signed s p) (signed t q)
  end.
Definition dlt (x y : dbl) : bool := dle x y && negb (dle y x).
Definition d0 : dbl := DFin false 0.
Definition d1 : dbl := DFin false 1.
(* broadcasting.pyx:6-7 where C long has 64 bits, evaluated in double precision: both are
   2^63 - 10 sqrt(2^63) rounded *)
Definition poisson_max : dbl := DFin false (9223372006484770816 # 1).
Definition legacy_poisson_max : dbl := poisson_max.

(* broadcasting.pxd:13-23 *)
Inductive cons_t := CNone | CNonNegative | CPositive | CPositiveNotNan | CBounded01 | CBoundedGt01 | CGt1 | CGte1 | CPoisson | CLegacyPoisson.
(* broadcasting.pyx:46-78 check_constraint *)
Definition check_constraint (c : cons_t) (v : dbl) : outcome unit :=
  match c with
  | CNonNegative => if negb (dnan v) && dneg v then Raise ValueError else Ok tt
  | CPositive => if dle v d0 then Raise ValueError else Ok tt
  | CPositiveNotNan => if dnan v then Raise ValueError else if dle v d0 then Raise ValueError else Ok tt
  | CBounded01 => if negb (dle d0 v) || negb (dle v d1) then Raise ValueError else Ok tt
  | CBoundedGt01 => if negb (dlt d0 v) || negb (dle v d1) then Raise ValueError else Ok tt
  | CGt1 => if negb (dlt d1 v) then Raise ValueError else Ok tt
  | CGte1 => if negb (dle d1 v) then Raise ValueError else Ok tt
  | CPoisson => if negb (dle d0 v) then Raise ValueError else if negb (dle v poisson_max) then Raise ValueError else Ok tt
  | CLegacyPoisson => if negb (dle d0 v) then Raise ValueError else if negb (dle v legacy_poisson_max) then Raise ValueError else Ok tt
  | CNone => Ok tt
  end.
(* broadcasting.pyx:10-43 check_array_constraint, val the elements *)
Definition check_array_constraint (c : cons_t) (val : list dbl) : outcome unit :=
  match c with
  | CNonNegative => if existsb (fun v => negb (dnan v) && dneg v) val then Raise ValueError else Ok tt
  | CPositive => if existsb (fun v => dle v d0) val then Raise ValueError else Ok tt
  | CPositiveNotNan => if existsb dnan val then Raise ValueError else if existsb (fun v => dle v d0) val then Raise ValueError else Ok tt
  | CBounded01 => if negb (forallb (fun v => dle d0 v) val) || negb (forallb (fun v => dle v d1) val) then Raise ValueError else Ok tt
  | CBoundedGt01 => if negb (forallb (fun v => dlt d0 v) val) || negb (forallb (fun v => dle v d1) val) then Raise ValueError else Ok tt
  | CGt1 => if negb (forallb (fun v => dlt d1 v) val) then Raise ValueError else Ok tt
  | CGte1 => if negb (forallb (fun v => dle d1 v) val) then Raise ValueError else Ok tt
  | CPoisson => if negb (forallb (fun v => dle v poisson_max) val) then Raise ValueError else if negb (forallb (fun v => dle d0 v) val) then Raise ValueError else Ok tt
  | CLegacyPoisson => if negb (forallb (fun v => dle v legacy_poisson_max) val) then Raise ValueError else if negb (forallb (fun v => dle d0 v) val) then Raise ValueError else Ok tt
  | CNone => Ok tt
  end.

(* ----------------------------------------------------------- output arrays *)
(* A call returns, raises or has undefined behaviour *)
Inductive res (A : Type) := Fine (a : A) | Raises (e : exn) | Undefined.
Arguments Fine {A}. Arguments Raises {A}. Arguments Undefined {A}.
Definition rbind {A B} (x : res A) (f : A -> res B) : res B := match x with Fine a => f a | Raises e => Raises e | Undefined => Undefined end.
Definition of_outcome {A} (x : outcome A) : res A := match x with Ok a => Fine a | Raise e => Raises e end.
Inductive dtype := F32 | F64 | F80 | OtherType.
Definition dtype_eqb (a b : dtype) : bool := match a, b with F32, F32 | F64, F64 | F80, F80 | OtherType, OtherType => true | _, _ => false end.
(* what check_output looks at: the memory orders the array is contiguous in, whether it is
   writable, aligned and in native byte order, its type and its shape *)
Record nda := { a_c : bool; a_f : bool; a_ok : bool; a_dtype : dtype; a_shape : list N }.
Inductive outarg := OutNone | OutArray (a : nda) | OutOther.
(* broadcasting.pyx:80-117 check_output; an out that is no ndarray is cast to one without a check;
   size: the tuple, None if not given *)
Definition check_output (out : outarg) (t : dtype) (size : option (list N)) (require_c : bool) : res unit :=
  match out with
  | OutNone => Fine tt
  | OutOther => Undefined
  | OutArray a =>
      if negb ((a_c a && a_ok a) || (a_f a && a_ok a && negb require_c)) then Raises ValueError
      else if negb (dtype_eqb (a_dtype a) t) then Raises TypeError
      else match size with
           | None => Fine tt
           | Some s => if list_eq_dec N.eq_dec s (a_shape a) then Fine tt else Raises ValueError
           end
  end.

(* ------------------------------------------------------------------ fills *)
(* What a call returns: a scalar, a new C-ordered array, or out. Arrays are given by the values in
   memory order. *)
Inductive result (V : Type) := Scalar (v : V) | New (shape : list N) (mem : list V) | Out (a : nda) (mem : list V).
Arguments Scalar {V}. Arguments New {V}. Arguments Out {V}.
Section Fill.
  Context {St V : Type}.
  (* n successive draws *)
  Fixpoint draws (f : St -> St * V) (n : nat) (s : St) : St * list V :=
    match n with O => (s, []) | S n => let '(s1, v) := f s in let '(s2, l) := draws f n s1 in (s2, v :: l) end.
  (* broadcasting.pyx:119-141 double_fill, 143-164 float_fill, 166-187 float_fill_from_double
     (random_double_fill draws cnt numbers in order, rg-distributions.c:14-19) *)
  Definition fill (f : St -> St * V) (t : dtype) (size : option (list N)) (out : outarg) (s : St) : res (St * result V) :=
    match size, out with
    | None, OutNone => let '(s1, v) := f s in Fine (s1, Scalar v)
    | _, OutArray a => rbind (check_output out t size false) (fun _ => let '(s1, l) := draws f (N.to_nat (Shape.prod (a_shape a))) s in Fine (s1, Out a l))
    | _, OutOther => rbind (check_output out t size false) (fun _ => Undefined)
    | Some sh, OutNone => let '(s1, l) := draws f (N.to_nat (Shape.prod sh)) s in Fine (s1, New sh l)
    end.
  (* generator.pyx:357-371, the long double branch of random; random_long_double_fill counts with an
     int (rg-distributions.c:54-58), which overflows if there are 2^31 numbers or more *)
  Definition fill_long (f : St -> St * V) (size : option (list N)) (out : outarg) (s : St) : res (St * result V) :=
    let n := match out with OutArray a => Shape.prod (a_shape a) | _ => match size with Some sh => Shape.prod sh | None => 1 end end in
    rbind (check_output out F80 size false) (fun _ => if 2 ^ 31 <=? n then Undefined else fill f F80 size out s).
  (* generator.pyx:236-286 uintegers *)
  Definition uintegers (next64 next32 : St -> St * V) (size : option (list N)) (bits : Z) (s : St) : res (St * result V) :=
    if (bits =? 64)%Z then fill next64 OtherType size OutNone s
    else if (bits =? 32)%Z then fill next32 OtherType size OutNone s
    else Raises ValueError.
  (* generator.pyx:288-373 random, for the three types (on a platform whose long double is NumPy's) *)
  Definition random (nd nf nl : St -> St * V) (size : option (list N)) (t : dtype) (out : outarg) (s : St) : res (St * result V) :=
    match t with
    | F64 => fill nd F64 size out s
    | F32 => fill nf F32 size out s
    | F80 => fill_long nl size out s
    | OtherType => Raises TypeError
    end.

  (* ------------------------------------------------- broadcast parameters *)
  (* a number given as a parameter: a double or an int64 *)
  Inductive num := ND (d : dbl) | NI (z : Z).
  (* <double> of it *)
  Definition to_dbl (v : num) : dbl :=
    match v with ND d => d | NI z => DFin (z <? 0)%Z (inject_Z (to_double (Z.abs z))) end.
  (* a parameter: its shape (scalar: []), its elements in C order, its constraint *)
  Record param := { p_shape : list N; p_at : N -> num; p_cons : cons_t }.
  Definition p_scalar (p : param) : bool := match p_shape p with [] => true | _ => false end.
  Definition p_elements (p : param) : list dbl := map (fun i => to_dbl (p_at p (N.of_nat i))) (seq 0 (N.to_nat (Shape.prod (p_shape p)))).
  Fixpoint check_arrays (ps : list param) : outcome unit :=
    match ps with [] => Ok tt | p :: ps => obind (check_array_constraint (p_cons p) (p_elements p)) (fun _ => check_arrays ps) end.
  Fixpoint check_scalars (ps : list param) : outcome unit :=
    match ps with [] => Ok tt | p :: ps => obind (check_constraint (p_cons p) (to_dbl (p_at p 0))) (fun _ => check_scalars ps) end.
  (* np.PyArray_MultiIterNew *)
  Fixpoint bc_all (acc : list N) (shs : list (list N)) : option (list N) :=
    match shs with [] => Some acc | sh :: shs => match np_broadcast acc sh with None => None | Some acc => bc_all acc shs end end.
  (* the loop of the broadcast versions: number k is drawn with the parameters at the k-th position
     of the iterator *)
  Fixpoint bc_loop (f : St -> list num -> St * V) (it : list N) (ps : list param) (k : N) (n : nat) (s : St) : St * list V :=
    match n with
    | O => (s, [])
    | S n => let '(s1, v) := f s (map (fun p => p_at p (pick (p_shape p) (unravel it k))) ps) in
             let '(s2, l) := bc_loop f it ps (k + 1) n s1 in (s2, v :: l)
    end.
  (* cont_broadcast_1, _2, _3 (broadcasting.pyx:189-302), cont_broadcast_1_f (718-752) and
     discrete_broadcast_* (400-573): out only reaches those with one double; reading on past the end
     of the iterator is undefined *)
  Definition bc_fill (f : St -> list num -> St * V) (size : option (list N)) (ps : list param) (out : outarg) (s : St) : res (St * result V) :=
    rbind (of_outcome (check_arrays ps)) (fun _ =>
    let shape := match out with OutArray a => Some (a_shape a) | _ => match size with Some sh => Some sh | None => bc_all [] (map p_shape ps) end end in
    match shape with
    | None => Raises ValueError
    | Some sh =>
        match bc_all sh (map p_shape ps) with
        | None => Raises ValueError
        | Some it =>
            if Shape.prod it <? Shape.prod sh then Undefined
            else let '(s1, l) := bc_loop f it ps 0 (N.to_nat (Shape.prod sh)) s in
                 Fine (s1, match out with OutArray a => Out a l | _ => New sh l end)
        end
    end).
  (* broadcasting.pyx:304-398 cont for 0 to 3 parameters; cont_f (754-795) is the case of one *)
  Definition cont (t : dtype) (f : St -> list num -> St * V) (size : option (list N)) (ps : list param) (out : outarg) (s : St) : res (St * result V) :=
    rbind (check_output out t size (match ps with [] => false | _ => true end)) (fun _ =>
    if forallb p_scalar ps then
      rbind (of_outcome (check_scalars ps)) (fun _ =>
      let g s := f s (map (fun p => p_at p 0) ps) in
      match size, out with
      | None, OutNone => let '(s1, v) := g s in Fine (s1, Scalar v)
      | _, OutArray a => let '(s1, l) := draws g (N.to_nat (Shape.prod (a_shape a))) s in Fine (s1, Out a l)
      | _, OutOther => Undefined
      | Some sh, OutNone => let '(s1, l) := draws g (N.to_nat (Shape.prod sh)) s in Fine (s1, New sh l)
      end)
    else bc_fill f size ps (match ps with [_] => out | _ => OutNone end) s).
  (* broadcasting.pyx:576-715 disc for the combinations of parameters it is used with *)
  Definition disc (f : St -> list num -> St * V) (size : option (list N)) (ps : list param) (s : St) : res (St * result V) :=
    if forallb p_scalar ps then
      rbind (of_outcome (check_scalars ps)) (fun _ =>
      let g s := f s (map (fun p => p_at p 0) ps) in
      match size with
      | None => let '(s1, v) := g s in Fine (s1, Scalar v)
      | Some sh => let '(s1, l) := draws g (N.to_nat (Shape.prod sh)) s in Fine (s1, New sh l)
      end)
    else bc_fill f size ps OutNone s.
End Fill.
